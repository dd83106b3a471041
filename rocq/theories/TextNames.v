(* TextNames.v -- names printed in comments have only good characters (no
   newline, say) when those of the registry do *)
From Coq Require Import ZifyBool ZifyNat DecimalString Decimal.
From Verif Require Import Py Usage Item Parser HidSpec Spec ItemFacts ParserFacts CodecProofs TextFormats TextProofs.
Ltac Zify.zify_post_hook ::= Z.div_mod_to_equations.

(** the printable ASCII characters and the space *)
Definition printable (c : ascii) : bool := between 32 126 c.
Fixpoint cleanb (s : string) : bool :=
  match s with EmptyString => true | String c r => printable c && cleanb r end.

Section Good.
Variable good : ascii -> bool.
Hypothesis good_printable : forall c, printable c = true -> good c = true.

Definition clean (s : string) : Prop := Forall (fun c => good c = true) (str s).
Definition clean_db (db : udb) : Prop := forall z n ks, db z = Some (n, ks) -> clean n.
Definition clean_val (v : pval) : Prop := clean (pval_name v).

Lemma clean_nil : clean "".
Proof. constructor. Qed.
Lemma clean_cons c s : good c = true -> clean s -> clean (String c s).
Proof. intros H C. constructor; auto. Qed.
Lemma clean_app a b : clean a -> clean b -> clean (a ++ b).
Proof. induction a as [|c a IH]; intros A B; auto. apply clean_cons; [exact (Forall_inv A)|]. apply IH; auto. exact (Forall_inv_tail A). Qed.
Lemma clean_tail c s : clean (String c s) -> good c = true /\ clean s.
Proof. intros H. split; [exact (Forall_inv H)|exact (Forall_inv_tail H)]. Qed.

Lemma cleanb_ok s : cleanb s = true -> clean s.
Proof.
  induction s as [|c s IH]; intros H; [apply clean_nil|]. cbn [cleanb] in H.
  apply andb_true_iff in H. destruct H as [H1 H2]. apply clean_cons; auto.
Qed.
Ltac print := apply good_printable; vm_compute; reflexivity.

Lemma clean_uint u : clean (NilEmpty.string_of_uint u).
Proof. induction u; simpl; try apply clean_nil; apply clean_cons; auto; print. Qed.

Lemma clean_dec z : clean (dec_of_Z z).
Proof.
  unfold dec_of_Z. destruct (Z.to_int z) as [u|u]; simpl.
  - destruct u; try apply (clean_uint (_ u)); try (apply cleanb_ok; reflexivity);
      simpl; apply clean_cons; try apply clean_uint; print.
  - apply clean_cons; [print|].
    destruct u; try (apply cleanb_ok; reflexivity);
      simpl; apply clean_cons; try apply clean_uint; print.
Qed.

Lemma hexdigit_good d : 0 <= d < 16 -> good (hexdigit d) = true.
Proof.
  intros H.
  assert (D : d = 0 \/ d = 1 \/ d = 2 \/ d = 3 \/ d = 4 \/ d = 5 \/ d = 6 \/ d = 7 \/ d = 8 \/ d = 9
     \/ d = 10 \/ d = 11 \/ d = 12 \/ d = 13 \/ d = 14 \/ d = 15) by lia.
  repeat destruct D as [D|D]; subst d; print.
Qed.

Lemma clean_hexdigits n : forall z acc, clean acc -> clean (hex_digits_fuel n z acc).
Proof.
  induction n as [|n IH]; intros z acc C; auto. cbn [hex_digits_fuel].
  assert (C' : clean (String (hexdigit (z mod 16)) acc)).
  { apply clean_cons; auto. apply hexdigit_good. lia. }
  destruct (z / 16 =? 0); auto.
Qed.

Lemma clean_hex z : clean (hex_of_Z z).
Proof.
  unfold hex_of_Z, hex_digits. destruct (z <? 0); apply clean_app;
    try (apply cleanb_ok; reflexivity); apply clean_hexdigits, clean_nil.
Qed.

Lemma clean_join sep l : clean sep -> Forall clean l -> clean (join sep l).
Proof.
  intros S F. induction F as [|x l X F IH]; [apply clean_nil|].
  destruct l as [|y l]; auto. change (join sep (x :: y :: l)) with (x ++ sep ++ join sep (y :: l))%string.
  repeat apply clean_app; auto.
Qed.

Lemma clean_flags i : clean (flags_name i).
Proof.
  unfold flags_name.
  assert (C : clean (join "|" (map fst (filter (fun r => negb (Z.land (snd r) i =? 0)) flag_rev)))).
  { apply clean_join; [apply cleanb_ok; reflexivity|]. apply Forall_forall. intros x X.
    apply in_map_iff in X. destruct X as [[n z] [<- X]]. apply filter_In in X. destruct X as [X _].
    apply cleanb_ok. cbn [fst].
    assert (A : forallb (fun p => cleanb (fst p)) flag_rev = true) by reflexivity.
    rewrite forallb_forall in A. exact (A _ X). }
  destruct (join _ _); [apply cleanb_ok; reflexivity|exact C].
Qed.

Lemma clean_split_dot s p n : clean s -> split_dot s = Some (p, n) -> clean p /\ clean n.
Proof.
  revert p n. induction s as [|c s IH]; intros p n C H; [discriminate|].
  apply clean_tail in C. destruct C as [C1 C2]. cbn [split_dot] in H.
  destruct (Ascii.eqb c "."); [injection H as <- <-; split; auto; apply clean_nil|].
  destruct (split_dot s) as [[p' n']|]; [|discriminate]. injection H as <- <-.
  destruct (IH _ _ C2 eq_refl). split; auto. apply clean_cons; auto.
Qed.

Lemma clean_lookup db v : clean_db db -> clean_val v -> clean_val (lookup db v).
Proof.
  intros D C. unfold lookup. destruct v as [z|n z|n z k]; auto.
  destruct (negb (Z.shiftr z 16 =? 0)); [|apply clean_hex].
  destruct (db z) as [[n ks]|] eqn:E; [|apply clean_hex]. exact (D _ _ _ E).
Qed.

Lemma clean_page z : clean_val (usage_page z).
Proof.
  unfold usage_page, clean_val. cbn [pval_name].
  destruct (pageName z) as [n|] eqn:E; [|apply clean_dec].
  apply cleanb_ok. unfold pageName in E.
  repeat match type of E with
         | match ?x with _ => _ end = _ => destruct x; try discriminate E
         end; injection E as <-; reflexivity.
Qed.

Lemma clean_split u : clean_val u -> clean_val (fst (split u)) /\ clean_val (snd (split u)).
Proof.
  intros C. unfold split. destruct (split_dot (pval_name u)) as [[p n]|] eqn:E.
  - exact (clean_split_dot _ _ _ C E).
  - cbn [fst snd]. split; [apply clean_page|]. apply clean_dec.
Qed.

Lemma clean_inpage db p n : clean_db db -> clean_val (inpage db p n).
Proof. intros D. apply clean_split, clean_lookup; auto. apply clean_dec. Qed.

Lemma clean_unit v : clean_val v -> clean_val (usual_unit v).
Proof.
  intros C. unfold usual_unit. destruct (find _ usual_units) as [[[a n] z]|] eqn:E; auto.
  apply find_some in E. destruct E as [I _]. unfold clean_val. cbn [pval_name].
  assert (A : forallb (fun p => cleanb (snd (fst p))) usual_units = true) by reflexivity.
  rewrite forallb_forall in A. apply cleanb_ok. exact (A _ I).
Qed.

Lemma clean_init c v i :
  (match v with Some x => clean_val x | None => True end) -> item_init c v = Ok i -> clean_val (iv i).
Proof.
  intros C H. unfold item_init in H.
  destruct (_ || _) in H; [|discriminate]. injection H as <-. cbn [iv].
  destruct v as [x|]; [destruct (truthy x); auto; apply clean_dec|apply clean_dec].
Qed.

Lemma clean_mk db c v i :
  clean_db db -> (match v with Some x => clean_val x | None => True end) ->
  mk_item db c v = Ok i -> clean_val (iv i).
Proof.
  intros D C H. unfold mk_item in H. destruct c;
    try (eapply clean_init; [|exact H]; exact C);
    try (destruct v as [x|]; [|discriminate]).
  1,2,3: destruct x; (eapply clean_init; [|exact H]); auto; apply clean_flags.
  - destruct x as [z|n z|n z k]; try (eapply clean_init; [|exact H]; exact C).
    destruct (_ <? _) in H; [|eapply clean_init; [|exact H]; exact C].
    destruct (py_index collection_rev z) as [[n y]|] eqn:E; [|discriminate]. cbn [bind] in H.
    eapply clean_init; [|exact H]. unfold clean_val. cbn [pval_name].
    unfold py_index in E. destruct (_ || _) in E; [discriminate|].
    destruct (nth_error collection_rev _) as [q|] eqn:N; [|discriminate]. injection E as ->.
    apply nth_error_In in N.
    assert (A : forallb (fun p => cleanb (fst p)) collection_rev = true) by reflexivity.
    rewrite forallb_forall in A. apply cleanb_ok. exact (A _ N).
  - destruct (py_int x =? 0); [|discriminate]. eapply clean_init; [|exact H]. apply clean_dec.
  - eapply clean_init; [|exact H]. destruct v; auto. apply clean_unit; auto.
  - destruct (py_int x =? 0); [|discriminate]. eapply clean_init; [|exact H]. apply clean_dec.
  - destruct (py_int x =? 0); [|discriminate]. eapply clean_init; [|exact H]. apply clean_dec.
  - cbn in H. eapply clean_init; [|exact H]. apply clean_lookup; auto.
  - cbn in H. eapply clean_init; [|exact H]. apply clean_lookup; auto.
  - cbn in H. eapply clean_init; [|exact H]. apply clean_lookup; auto.
Qed.

Lemma clean_item i : clean_val (iv i) -> clean (item_str i).
Proof.
  intros C. unfold item_str.
  assert (T : clean (tag_name (ic i))) by (apply cleanb_ok; destruct (ic i); reflexivity).
  destruct (_ || _); auto. repeat apply clean_app; auto; apply cleanb_ok; reflexivity.
Qed.

Lemma clean_append db p i p' j :
  clean_db db -> clean_val (iv i) -> parser_append db p i = (p', Ok j) -> clean_val (iv j).
Proof.
  intros D C H. unfold parser_append in H.
  destruct (match ic i with UsagePage => _ | _ => _ end) as [page1 i1] eqn:E.
  assert (C1 : forall k, i1 = Ok k -> clean_val (iv k)).
  { intros k ->. destruct (ic i); injection E as _ E; try (subst; exact C).
    eapply clean_init; [|exact E]. apply clean_page. }
  destruct i1 as [i2|]; [|discriminate]. specialize (C1 i2 eq_refl).
  destruct (ic i2) eqn:I2; try (injection H as _ <-; exact C1);
  destruct (Z.shiftr (ival i2) 16 =? 0); try (injection H as _ <-; exact C1);
  injection H as _ H; (eapply clean_init; [|exact H]); apply clean_lookup; auto; apply clean_inpage; auto.
Qed.

Lemma clean_blob n : forall db p b,
  clean_db db -> Forall (fun i => clean_val (iv i)) (appended (blob_parse_fuel n db p b)).
Proof.
  induction n as [|n IH]; intros db p b D; destruct b as [|h b]; try constructor.
  cbn [blob_parse_fuel].
  destruct (parse db _) as [i|] eqn:P; [|constructor].
  assert (C : clean_val (iv i)).
  { unfold parse in P. destruct (firstn _ _) as [|h' r]; [discriminate|].
    destruct (itemclass _ _) as [c|]; [|discriminate].
    match type of P with bind ?r _ = _ => destruct r as [v|]; [|discriminate] end.
    cbn [bind] in P. eapply clean_mk; [exact D| |exact P]. apply clean_dec. }
  destruct (parser_append db p i) as [p' [j|]] eqn:A; [|constructor].
  constructor; [|apply IH; auto]. eapply clean_append; eauto.
Qed.

End Good.

Definition not_nl (c : ascii) : bool := negb (Ascii.eqb c nl).
Lemma not_nl_printable c : printable c = true -> not_nl c = true.
Proof.
  intros H. unfold not_nl. destruct (Ascii.eqb c nl) eqn:E; [|reflexivity].
  apply Ascii.eqb_eq in E. subst c. vm_compute in H. discriminate.
Qed.
Lemma clean_no_nl s : clean not_nl s <-> no_nl (str s).
Proof.
  unfold clean, no_nl. rewrite Forall_forall. split.
  - intros H I. specialize (H _ I). vm_compute in H. discriminate.
  - intros H c I. unfold not_nl. destruct (Ascii.eqb c nl) eqn:E; [|reflexivity]. apply Ascii.eqb_eq in E. subst c. tauto.
Qed.

(** converting a blob to C code and back to a blob is converting it to a
    blob *)
Lemma c11_converter db db' b out :
  clean_db not_nl db -> convert db b = Ok out ->
  exists t, format_code (appended (blob_parse db b)) = Ok t /\ code_blob_of t = Ok out
            /\ parse_code db' t = blob_parse db' out.
Proof.
  intros D H. unfold convert in H.
  destruct (serialize _) as [o|] eqn:S; [|discriminate]. cbn [bind] in H.
  destruct (finished _); [|discriminate]. injection H as <-.
  destruct (c11 0 _ _ S) as [m [lines [R E]]].
  { eapply Forall_impl; [|apply (clean_blob not_nl not_nl_printable); exact D]. intros i C. apply clean_no_nl, clean_item; [exact not_nl_printable|exact C]. }
  exists (concat lines). unfold format_code, parse_code. rewrite R, E. auto.
Qed.

(** the registry of the package, after any calls, has only printable names *)
From Verif Require Import UsageTable UsageModules.
Local Open Scope Z_scope.
#[local] Opaque modules t_arcade.

Section Registry.
Variable good : ascii -> bool.
Hypothesis good_printable : forall c, printable c = true -> good c = true.
Notation clean := (clean good).
Notation clean_db := (clean_db good).

Lemma clean_register db n z k : clean_db db -> clean n -> clean_db (register db n z k).
Proof.
  intros D C y m ks. unfold register. destruct (y =? z); [|apply D].
  intros H. injection H as <- _. exact C.
Qed.

Lemma clean_register_decls l : forall db,
  clean_db db -> Forall (fun d => clean (u_name d)) l -> clean_db (register_decls db l).
Proof.
  induction l as [|d l IH]; intros db D F; [exact D|].
  inversion F as [|? ? F1 F2]. subst.
  change (register_decls db (d :: l))
    with (register_decls (register db (u_name d) (u_value d) (u_kinds d)) l).
  apply IH; [apply clean_register|]; auto.
Qed.

Lemma clean_modules : forall (ms : list (string * list udecl)) db,
  clean_db db -> forallb (fun m => forallb (fun d => cleanb (u_name d)) (snd m)) ms = true ->
  clean_db (fold_left (fun d m => register_decls d (snd m)) ms db).
Proof.
  induction ms as [|m ms IH]; intros db D F; [exact D|].
  cbn [forallb] in F. apply andb_true_iff in F. destruct F as [F1 F2].
  cbn [fold_left]. apply IH; [|exact F2]. apply clean_register_decls; [exact D|].
  apply Forall_forall. intros d I. rewrite forallb_forall in F1. apply (cleanb_ok good good_printable). exact (F1 d I).
Qed.

Lemma clean_default : clean_db default_db.
Proof.
  unfold default_db. apply clean_modules; [intros z n ks H; discriminate|]. vm_compute. reflexivity.
Qed.

Lemma arcade_clean : forallb (fun d => cleanb (u_name d)) t_arcade = true.
Proof. vm_compute. reflexivity. Qed.

Lemma clean_after h : clean_db (db_after h).
Proof.
  unfold db_after. generalize clean_default. generalize default_db.
  induction h as [|c h IH]; intros db D; [exact D|]. cbn [fold_left]. apply IH.
  destruct c as [n|n|]; cbn [db_call]; apply clean_register_decls; auto.
  - constructor; [|constructor]. cbn [u_name button_decl].
    repeat apply clean_app; try apply (clean_dec good good_printable); apply (cleanb_ok good good_printable); reflexivity.
  - constructor; [|constructor]. cbn [u_name ordinal_decl].
    repeat apply clean_app; try apply (clean_dec good good_printable); apply (cleanb_ok good good_printable); reflexivity.
  - apply Forall_forall. intros d I. pose proof arcade_clean as A. rewrite forallb_forall in A.
    apply (cleanb_ok good good_printable). exact (A d I).
Qed.
End Registry.
