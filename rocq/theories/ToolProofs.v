(* ToolProofs.v -- the command line tools *)
From Coq Require Import ZArith List Bool Lia ZifyBool ZifyNat String Ascii.
From Verif Require Import Py Usage Item Parser Optimizer Descriptor Extractor TextFormats Dumper Tools.
From Verif Require Import HidSpec Spec ItemFacts ParserFacts CodecProofs TextProofs TextNames OptFacts PassFacts StreamSpec StreamProofs StreamTree NameTree UsageModules ExtractAgain TreeOpt ToolSpec.
Import ListNotations.
Local Open Scope list_scope.
Local Open Scope Z_scope.

Notation pclean := (clean printable).
Notation pval_clean := (clean_val printable).

Lemma printable_self c : printable c = true -> printable c = true.
Proof. auto. Qed.
Lemma printable_plain c : printable c = true <-> plain_char c.
Proof. unfold printable, between, plain_char, code. lia. Qed.
Lemma plain_clean s : plain_name s -> pclean s.
Proof. intros H. eapply Forall_impl; [|exact H]. intros c P. apply printable_plain. exact P. Qed.
Lemma registry_clean db : plain_registry db -> clean_db printable db.
Proof. intros H z n ks E. apply plain_clean. exact (H z n ks E). Qed.
Lemma val_clean v : plain_val v -> pval_clean v.
Proof. destruct v; intros H; unfold clean_val; cbn [pval_name]; [apply clean_dec; exact printable_self|apply plain_clean; exact H..]. Qed.

(* ------------------------------------------------------------------ *)
(** names through the optimiser *)

Definition tidy_name (i : item) : Prop := pval_clean (iv i) /\ (ic i = ReportCount -> 0 <= ival i).

Lemma rebuild_name db c v : clean_db printable db -> pval_clean v -> c <> ReportCount -> Forall tidy_name (rebuild db c v).
Proof.
  intros D C N. unfold rebuild. destruct (mk_item db c (Some v)) as [i|] eqn:E; [|constructor].
  constructor; [|constructor]. split; [exact (clean_mk printable printable_self db c (Some v) i D C E)|].
  rewrite (mk_item_class _ _ _ _ E). contradiction.
Qed.

Lemma rm_name db lk mn mx l : clean_db printable db -> lk <> ReportCount -> mn <> ReportCount -> mx <> ReportCount ->
  Forall tidy_name l -> Forall tidy_name (run_pass (range_merge db lk mn mx) l).
Proof.
  intros D A B C. apply rm_each. intros i c [H _] E M. apply rebuild_name; auto. destruct M as [-> | [-> | ->]]; assumption.
Qed.

Lemma up_name db l : clean_db printable db -> Forall tidy_name l -> Forall tidy_name (run_pass (usage_page_pass db) l).
Proof.
  intros D. apply (each_run tidy_name (usage_page_pass db) (fun _ => True)); [exact I| |constructor].
  intros page i _ [C R]. split; [|exact I]. change (p_append (usage_page_pass db)) with (up_append db).
  unfold up_append. destruct (is_usage (ic i)) eqn:U.
  - pose proof (clean_split printable printable_self _ (clean_lookup printable printable_self db (iv i) D C)) as [S1 S2].
    destruct (split _) as [sp su]. cbn [fst snd] in *. apply Forall_app. split.
    + match goal with |- context [if ?b then _ else _] => destruct b end; [|constructor]. apply rebuild_name; auto. discriminate.
    + apply rebuild_name; auto. intros E. rewrite E in U. discriminate.
  - cbn [snd]. constructor; [split; assumption|constructor].
Qed.

Lemma optimize_name db l : clean_db printable db -> Forall tidy_name l -> Forall tidy_name (optimize db l).
Proof.
  intros D F. rewrite optimize_all. cbn [passes map snd run_all fold_left].
  apply up_name; [exact D|]. unfold usage_merge, designator_merge, string_merge.
  do 3 (apply rm_name; [exact D|discriminate..|]).
  apply gm_each, pm_each. apply mm_each; [|intros i [_ H]; exact H|apply du_each; exact F].
  intros n N. split; [apply (clean_dec printable printable_self)|]. intros _. exact N.
Qed.

Lemma constructed_name l : Forall constructed l -> Forall (fun i => pval_clean (iv i)) l -> Forall tidy_name l.
Proof.
  intros C F. apply Forall_forall. intros i I. rewrite Forall_forall in C, F. split; [exact (F i I)|]. apply rc_nonneg. exact (C i I).
Qed.

(* ------------------------------------------------------------------ *)
(** names of the items of a tree *)

Definition req_clean (r : icls * option pval) : Prop := match snd r with Some v => pval_clean v | None => True end.

Lemma items_clean db l o : clean_db printable db -> Forall req_clean l -> mk_items db l = Ok o -> Forall (fun i => pval_clean (iv i)) o.
Proof.
  intros D F. revert o. induction F as [|[c v] l H F IH]; intros o E; cbn [mk_items] in E; [injection E as <-; constructor|].
  destruct (mk_item db c v) as [i|] eqn:M; [|discriminate]. cbn [bind] in E.
  destruct (mk_items db l) as [is|]; [|discriminate]. cbn [bind] in E. injection E as <-.
  constructor; [|apply IH; reflexivity]. exact (clean_mk printable printable_self db c v i D H M).
Qed.

Lemma int_clean z : pval_clean (VInt z).
Proof. apply (clean_dec printable printable_self). Qed.

Lemma value_clean db v named c : clean_db printable db -> plain_tree (TValue v) -> Forall req_clean (value_reqs db v named c).
Proof.
  intros D P. inversion P as [w U F N A| | |]; subst.
  assert (OI : forall k o, req_clean (k, opt_int o)) by (intros k [z|]; [apply int_clean|exact I]).
  assert (KI : forall k z, req_clean (k, Some (VInt z))) by (intros k z; apply int_clean).
  assert (UU : req_clean (Usage, v_usage v)).
  { unfold req_clean. cbn [snd]. destruct (v_usage v); [apply val_clean; exact U|exact I]. }
  unfold value_reqs. repeat (apply Forall_app; split).
  - match goal with |- Forall _ (if ?b then _ else _) => destruct b end; [constructor|].
    repeat (apply Forall_app; split);
      repeat match goal with
             | |- Forall _ (if ?b then _ else _) => destruct b
             | |- Forall _ [] => apply Forall_nil
             | |- Forall _ (_ ++ _) => apply Forall_app; split
             | |- Forall _ (map _ _) => fail 1
             | |- Forall _ (_ :: _) => apply Forall_cons
             end; auto.
    all: try (unfold req_clean; cbn [snd]; apply val_clean; assumption).
    all: try (unfold req_clean; cbn [snd]; unfold clean_val; cbn [pval_name]; apply (cleanb_ok printable printable_self); reflexivity).
    apply Forall_map. destruct (v_named v) as [[l|r]|]; [| |constructor].
    + eapply Forall_impl; [|exact A]. intros u H. apply val_clean. exact H.
    + cbn [narr_iter]. unfold range_iter. apply Forall_map. apply Forall_forall. intros z _. unfold req_clean. cbn [snd].
      apply (clean_lookup printable printable_self); [exact D|apply int_clean].
  - repeat apply Forall_cons; [apply KI..| |apply Forall_nil]. apply val_clean. exact F.
  - match goal with |- Forall _ (if ?b then _ else _) => destruct b end; [|constructor]. apply Forall_cons; [apply KI|constructor].
Qed.

Lemma element_clean db st v st' o : clean_db printable db -> plain_tree (TValue v) -> element db st v = Ok (st', o) ->
  Forall (fun i => pval_clean (iv i)) o.
Proof.
  intros D P H. unfold element in H.
  match type of H with bind ?x _ = _ => destruct x as [pad|]; [|discriminate H] end. cbn [bind] in H.
  match type of H with bind ?x _ = _ => destruct x as [[st1 out1]|] eqn:E1; [|discriminate H] end. cbn [bind] in H.
  assert (O1 : Forall (fun i => pval_clean (iv i)) out1).
  { destruct (pad =? 0); [injection E1 as <- <-; constructor|].
    destruct (rs_add st _ pad); [|discriminate]. cbn [bind] in E1. destruct (main_class _) as [c|]; [|discriminate]. cbn [bind] in E1.
    destruct (mk_items db _) as [q|] eqn:M; [|discriminate]. cbn [bind] in E1. injection E1 as <- <-.
    eapply items_clean; [exact D| |exact M]. do 3 (apply Forall_cons; [apply int_clean|]). apply Forall_nil. }
  destruct (v_kind v); [|injection H as <- <-; exact O1..].
  destruct (narr_truthy _) as [named|]; [|discriminate]. cbn [bind] in H.
  destruct (rs_add st1 _ _); [|discriminate]. cbn [bind] in H. destruct (main_class _) as [c|]; [|discriminate]. cbn [bind] in H.
  destruct (mk_items db _) as [q|] eqn:M; [|discriminate]. cbn [bind] in H. injection H as <- <-.
  apply Forall_app. split; [exact O1|]. eapply items_clean; [exact D| |exact M]. apply value_clean; assumption.
Qed.

Definition stream_clean db t := plain_tree t -> forall st st' o, stream_tree db st t = Ok (st', o) -> Forall (fun i => pval_clean (iv i)) o.

Lemma members_clean db ms : Forall (stream_clean db) ms -> plain_trees ms -> forall st st' o, stream_members db st ms = Ok (st', o) ->
  Forall (fun i => pval_clean (iv i)) o.
Proof.
  intros F. induction F as [|m ms H F IH]; intros P st st' o E; cbn [stream_members] in E; [injection E as <- <-; constructor|].
  inversion P; subst. destruct (stream_tree db st m) as [[s1 o1]|] eqn:E1; [|discriminate]. cbn [bind] in E.
  destruct (stream_members db s1 ms) as [[s2 o2]|] eqn:E2; [|discriminate]. cbn [bind] in E. injection E as <- <-.
  apply Forall_app. split; [eapply H|eapply IH]; eassumption.
Qed.

Lemma tree_clean db t : clean_db printable db -> stream_clean db t.
Proof.
  intros D. revert t. apply tree_all.
  - intros v P st st' o E. eapply element_clean; eassumption.
  - intros id ms F P st st' o E. inversion P; subst. cbn [stream_tree] in E. rewrite stream_go in E.
    match type of E with bind ?x _ = _ => destruct x as [q|] eqn:M; [|discriminate E] end. cbn [bind] in E.
    destruct (stream_members db _ ms) as [[s1 o1]|] eqn:E1; [|discriminate]. cbn [bind] in E. injection E as <- <-.
    apply Forall_app. split; [|eapply members_clean; eassumption].
    destruct (id =? 0); [injection M as <-; constructor|]. eapply items_clean; [exact D| |exact M].
    apply Forall_cons; [apply int_clean|apply Forall_nil].
  - intros ms F P st st' o E. inversion P; subst. cbn [stream_tree] in E. rewrite stream_go in E. eapply members_clean; eassumption.
  - intros k u ms F P st st' o E. inversion P; subst. cbn [stream_tree] in E. rewrite stream_go in E.
    match type of E with bind ?x _ = _ => destruct x as [q|] eqn:M; [|discriminate E] end. cbn [bind] in E.
    destruct (stream_members db _ ms) as [[s1 o1]|] eqn:E1; [|discriminate]. cbn [bind] in E.
    match type of E with bind ?x _ = _ => destruct x as [q2|] eqn:M2; [|discriminate E] end. cbn [bind] in E. injection E as <- <-.
    repeat (apply Forall_app; split).
    + eapply items_clean; [exact D| |exact M]. apply Forall_cons; [|apply Forall_cons; [|apply Forall_nil]].
      * unfold req_clean. cbn [snd]. destruct u; [apply val_clean; assumption|exact I].
      * apply val_clean. assumption.
    + eapply members_clean; eassumption.
    + eapply items_clean; [exact D| |exact M2]. apply Forall_cons; [apply int_clean|apply Forall_nil].
Qed.

(* ------------------------------------------------------------------ *)
(** what is written is read back *)

Definition simple (c : ascii) : Prop := plain_char c \/ c = ascii_of_nat 10.

Lemma simple_text s : pclean s -> Forall simple (str s).
Proof. intros H. eapply Forall_impl; [|exact H]. intros c P. left. apply printable_plain. exact P. Qed.

Lemma simple_str s : cleanb s = true -> Forall simple (str s).
Proof. intros H. apply simple_text. apply (cleanb_ok printable printable_self). exact H. Qed.

Lemma simple_join sep l : Forall simple sep -> Forall (Forall simple) l -> Forall simple (join_text sep l).
Proof.
  intros A F. induction F as [|x l H F IH]; [constructor|]. destruct l as [|y l]; [exact H|].
  change (join_text sep (x :: y :: l)) with (x ++ sep ++ join_text sep (y :: l)). repeat (apply Forall_app; split); auto.
Qed.

Lemma simple_hex2 x : is_byte x -> Forall simple (str (hex2 x)) /\ Forall simple (str ("0x" ++ hex2 x)).
Proof.
  intros H. split; apply simple_str.
  - apply (for_byte (fun x => cleanb (hex2 x))); [vm_compute; reflexivity|exact H].
  - apply (for_byte (fun x => cleanb ("0x" ++ hex2 x))); [vm_compute; reflexivity|exact H].
Qed.

Lemma simple_spaces n : Forall simple (repeat " "%char n).
Proof. induction n; constructor; auto. left. apply printable_plain. reflexivity. Qed.

Lemma simple_nl : Forall simple [nl].
Proof. apply Forall_cons; [right; reflexivity|constructor]. Qed.

Lemma simple_hex l : forall t, format_hex l = Ok t -> Forall simple t.
Proof.
  induction l as [|i l IH]; intros t H; cbn [format_hex] in H; [injection H as <-; constructor|].
  destruct (bytes i) as [b|] eqn:B; [|discriminate]. cbn [bind] in H. destruct (format_hex l) as [u|]; [|discriminate].
  cbn [bind] in H. injection H as <-. pose proof (bytes_bytes i b B) as FB.
  apply Forall_app. split; [|apply IH; reflexivity]. unfold hex_line. apply Forall_app. split; [|apply simple_nl].
  apply simple_join; [apply simple_str; reflexivity|]. apply Forall_map. eapply Forall_impl; [|exact FB]. intros x X. apply simple_hex2. exact X.
Qed.

Lemma simple_code l : Forall (fun i => pval_clean (iv i)) l -> forall n m lines, code_run n l = Ok (m, lines) -> Forall simple (concat lines).
Proof.
  intros F. induction F as [|i l C F IH]; intros n m lines H; cbn [code_run] in H; [injection H as <- <-; constructor|].
  unfold code_append in H. destruct (bytes i) as [b|] eqn:B; [|discriminate]. cbn [bind] in H.
  destruct (code_run _ l) as [[m' lines']|] eqn:R in H; [|discriminate]. cbn [bind] in H. injection H as <- <-.
  cbn [concat]. apply Forall_app. split; [|eapply IH; exact R]. pose proof (bytes_bytes i b B) as FB.
  unfold code_line, ljust, code_blob. repeat (apply Forall_app; split).
  - apply simple_str. reflexivity.
  - apply simple_join; [apply simple_str; reflexivity|]. apply Forall_map. eapply Forall_impl; [|exact FB]. intros x X. apply simple_hex2. exact X.
  - apply simple_str. reflexivity.
  - apply simple_spaces.
  - apply simple_str. reflexivity.
  - apply simple_spaces.
  - apply simple_text, clean_item; [exact printable_self|exact C].
  - apply simple_nl.
Qed.

Lemma hex_serializes l : forall t, format_hex l = Ok t -> exists b, serialize l = Ok b.
Proof.
  induction l as [|i l IH]; intros t H; [exists []; reflexivity|]. cbn [format_hex serialize] in *.
  destruct (bytes i) as [b|]; [|discriminate]. cbn [bind] in *. destruct (format_hex l) as [u|]; [|discriminate].
  destruct (IH u eq_refl) as [c ->]. cbn [bind]. eauto.
Qed.

Lemma code_serializes l : forall n m lines, code_run n l = Ok (m, lines) -> exists b, serialize l = Ok b.
Proof.
  induction l as [|i l IH]; intros n m lines H; [exists []; reflexivity|]. cbn [code_run serialize] in *. unfold code_append in H.
  destruct (bytes i) as [b|]; [|discriminate]. cbn [bind] in *.
  destruct (code_run _ l) as [[m' lines']|] eqn:R in H; [|discriminate].
  destruct (IH _ _ _ R) as [c ->]. cbn [bind]. eauto.
Qed.

Lemma name_no_nl l : Forall (fun i => pval_clean (iv i)) l -> Forall (fun i => no_nl (str (item_str i))) l.
Proof.
  intros F. eapply Forall_impl; [|exact F]. intros i C. apply clean_no_nl.
  pose proof (clean_item printable printable_self i C) as H. eapply Forall_impl; [|exact H]. intros c. apply not_nl_printable.
Qed.

(** a text format holds the bytes *)
Lemma text_holds loc f dst l : faithful loc -> f <> FBinary -> Forall (fun i => pval_clean (iv i)) l ->
  (forall b, serialize l = Ok b -> exists y, write_items loc f dst l = Ok y) /\
  (forall y, write_items loc f dst l = Ok y -> exists b, serialize l = Ok b /\
     forall db src, read_items loc db f src y = blob_parse db b).
Proof.
  intros FA NB C. destruct f; [congruence|clear NB|clear NB].
  - split.
    + intros b S. destruct (c10 l b S) as [t [T _]]. unfold write_items. rewrite T. cbn [bind].
      destruct (FA t (simple_hex l t T)) as [y [Y _]]. exists y. destruct dst; exact Y.
    + intros y W. assert (W' : (let* t := format_hex l in l_write loc t) = Ok y) by (destruct dst; exact W). clear W.
      destruct (format_hex l) as [t|] eqn:T; [|discriminate]. cbn [bind] in W'. destruct (hex_serializes l t T) as [b S].
      exists b. split; [exact S|]. intros db src. destruct (FA t (simple_hex l t T)) as [y' [Y R]].
      assert (y' = y) by congruence. subst y'. destruct (c10 l b S) as [t' [T' HB]]. assert (t' = t) by congruence. subst t'.
      unfold read_items. rewrite R. unfold parse_hex. rewrite HB. destruct src; reflexivity.
  - split.
    + intros b S. destruct (c11 0 l b S (name_no_nl l C)) as [m [lines [T _]]]. unfold write_items, format_code. rewrite T. cbn [bind].
      destruct (FA (concat lines) (simple_code l C 0 m lines T)) as [y [Y _]]. exists y. destruct dst; exact Y.
    + intros y W. assert (W' : (let* t := format_code l in l_write loc t) = Ok y) by (destruct dst; exact W). clear W. unfold format_code in W'.
      destruct (code_run 0 l) as [[m lines]|] eqn:T; [|discriminate]. cbn [bind] in W'. destruct (code_serializes l 0 m lines T) as [b S].
      exists b. split; [exact S|]. intros db src. destruct (FA (concat lines) (simple_code l C 0 m lines T)) as [y' [Y R]].
      assert (y' = y) by congruence. subst y'. destruct (c11 0 l b S (name_no_nl l C)) as [m' [lines' [T' HB]]].
      assert (lines' = lines) by congruence. subst lines'.
      unfold read_items. rewrite R. unfold parse_code. rewrite HB. destruct src; reflexivity.
Qed.

Lemma text_get name : text_format name -> exists f, Tools.get name = Ok f /\ f <> FBinary.
Proof. intros [-> | ->]; eexists; (split; [reflexivity|discriminate]). Qed.

Lemma reads_like_ok loc fout f y b : Tools.get fout = Ok f -> (forall db src, read_items loc db f src y = blob_parse db b) -> reads_like loc fout y b.
Proof.
  intros G R db src. split.
  - intros o dst opt. unfold converter_tool. rewrite G. change (Tools.get "binary") with (Ok FBinary). cbn [bind]. rewrite R. reflexivity.
  - unfold decompiler_tool. rewrite G. change (Tools.get "binary") with (Ok FBinary). cbn [bind]. rewrite R. reflexivity.
Qed.

(* ------------------------------------------------------------------ *)
(** C59: the converter *)

Lemma parsed_clean loc db f src content : clean_db printable db -> Forall (fun i => pval_clean (iv i)) (appended (read_items loc db f src content)).
Proof.
  intros D. unfold read_items, parse_hex, parse_code.
  destruct f; [destruct src| |]; repeat match goal with |- context [match ?x with _ => _ end] => destruct x end;
    try (apply Forall_nil); apply (clean_blob printable printable_self); exact D.
Qed.

Lemma parsed_built n : forall db p b, Forall constructed (appended (blob_parse_fuel n db p b)).
Proof.
  induction n as [|n IH]; intros db p b; destruct b as [|h b]; try constructor.
  cbn [blob_parse_fuel]. destruct (parse db _) as [i|] eqn:P; [|constructor].
  assert (C : constructed i).
  { unfold parse in P. destruct (firstn _ _) as [|h' r]; [discriminate|]. destruct (itemclass _ _) as [c|]; [|discriminate].
    match type of P with bind ?r _ = _ => destruct r as [v|]; [|discriminate] end. cbn [bind] in P. exact (mk_item_constructed _ _ _ _ P). }
  destruct (parser_append db p i) as [p' [j|]] eqn:A; [|constructor]. cbn [appended]. constructor; [|apply IH].
  unfold parser_append in A. destruct (match ic i with UsagePage => _ | _ => _ end) as [page1 i1] eqn:E.
  assert (C1 : forall k, i1 = Ok k -> constructed k).
  { intros k ->. destruct (ic i); injection E as _ E; try (subst; exact C). exact (mk_item_constructed db UsagePage _ _ E). }
  destruct i1 as [i2|]; [|discriminate]. specialize (C1 i2 eq_refl).
  destruct (ic i2) eqn:I2; try (injection A as _ <-; exact C1);
  destruct (Z.shiftr (ival i2) 16 =? 0); try (injection A as _ <-; exact C1);
  injection A as _ A; match type of A with item_init ?c _ = _ => exact (mk_item_constructed db c (Some (inpage db page1 (ival i2))) j A) end.
Qed.

Lemma parsed_name loc db f src content : clean_db printable db -> Forall tidy_name (appended (read_items loc db f src content)).
Proof.
  intros D. apply constructed_name; [|apply parsed_clean; exact D]. unfold read_items, parse_hex, parse_code.
  destruct f; [destruct src| |]; repeat match goal with |- context [match ?x with _ => _ end] => destruct x end;
    try (apply Forall_nil); apply parsed_built.
Qed.

Lemma c59 loc db fin src fout dst opt content :
  faithful loc -> plain_registry db -> text_format fout ->
  (forall y, converter_tool loc db fin src fout dst opt content = Ok y ->
     exists b, converter_tool loc db fin src "binary" Standard opt content = Ok b /\ reads_like loc fout y b) /\
  (forall b, converter_tool loc db fin src "binary" Standard opt content = Ok b ->
     exists y, converter_tool loc db fin src fout dst opt content = Ok y).
Proof.
  intros FA PR TF. pose proof (registry_clean db PR) as D. destruct (text_get fout TF) as [f [G NB]].
  unfold converter_tool. rewrite G. change (Tools.get "binary") with (Ok FBinary).
  destruct (Tools.get fin) as [i|e]; [|split; discriminate]. cbn [bind]. pose proof (parsed_name loc db i src content D) as TN.
  destruct (finished (read_items loc db i src content)) as [[]|e]; [|split; discriminate]. cbn [bind].
  set (l := if opt then _ else _).
  assert (C : Forall (fun i => pval_clean (iv i)) l).
  { assert (T : Forall tidy_name l) by (unfold l; destruct opt; [apply optimize_name; assumption|exact TN]).
    eapply Forall_impl; [|exact T]. intros k [K _]. exact K. }
  destruct (text_holds loc f dst l FA NB C) as [H1 H2]. split.
  - intros y W. destruct (H2 y W) as [b [S R]]. exists b. split; [exact S|]. exact (reads_like_ok loc fout f y b G R).
  - intros b S. exact (H1 b S).
Qed.

(* ------------------------------------------------------------------ *)
(** C60: the compiler *)

Lemma c60 loc db fout dst opt t : faithful loc -> plain_registry db -> plain_tree t -> text_format fout ->
  (forall y, compiler_tool loc db fout dst opt t = Ok y -> exists b, compile db opt t = Ok b /\ reads_like loc fout y b) /\
  (forall b, compile db opt t = Ok b -> exists y, compiler_tool loc db fout dst opt t = Ok y).
Proof.
  intros FA PR PT TF. pose proof (registry_clean db PR) as D. destruct (text_get fout TF) as [f [G NB]].
  unfold compiler_tool, compile. rewrite G. cbn [bind].
  destruct (stream_items db t) as [o|e] eqn:E; [|split; discriminate]. cbn [bind].
  assert (TN : Forall tidy_name o).
  { unfold stream_items in E. destruct (stream_tree db sst_init t) as [[st' o']|] eqn:ST; [|discriminate]. cbn [bind] in E. injection E as ->.
    apply constructed_name; [exact (stream_constructed _ _ _ _ _ ST)|exact (tree_clean db t D PT _ _ _ ST)]. }
  set (l := if opt then _ else _).
  assert (C : Forall (fun i => pval_clean (iv i)) l).
  { assert (T : Forall tidy_name l) by (unfold l; destruct opt; [apply optimize_name; assumption|exact TN]).
    eapply Forall_impl; [|exact T]. intros k [K _]. exact K. }
  destruct (text_holds loc f dst l FA NB C) as [H1 H2]. split.
  - intros y W. destruct (H2 y W) as [b [S R]]. exists b. split; [exact S|]. exact (reads_like_ok loc fout f y b G R).
  - intros b S. exact (H1 b S).
Qed.

(* ------------------------------------------------------------------ *)
(** C61: the helper for tests *)

Lemma c61 db t expected : descriptor_expected db t expected = Ok tt <->
  exists b, code_blob_of expected = Ok b /\ compile db true t = Ok b.
Proof.
  unfold descriptor_expected, compile. destruct (stream_items db t) as [l|e]; cbn [bind].
  - rewrite <- (c13 expected (optimize db l)). unfold expect. destruct (code_blob_of expected); reflexivity.
  - split; [|intros [b [_ H]]; discriminate]. destruct (code_blob_of expected); discriminate.
Qed.

Lemma c61_output loc db dst t y : faithful loc -> plain_registry db -> plain_tree t ->
  compiler_tool loc db "code" dst true t = Ok y -> exists u, l_read loc y = Ok u /\ descriptor_expected db t u = Ok tt.
Proof.
  intros FA PR PT H. pose proof (registry_clean db PR) as D. unfold compiler_tool in H. change (Tools.get "code") with (Ok FCode) in H. cbn [bind] in H.
  destruct (stream_items db t) as [o|e] eqn:E; [|discriminate]. cbn [bind] in H.
  assert (C : Forall (fun i => pval_clean (iv i)) (optimize db o)).
  { unfold stream_items in E. destruct (stream_tree db sst_init t) as [[st' o']|] eqn:ST; [|discriminate]. cbn [bind] in E. injection E as ->.
    assert (T : Forall tidy_name (optimize db o)).
    { apply optimize_name; [exact D|]. apply constructed_name; [exact (stream_constructed _ _ _ _ _ ST)|exact (tree_clean db t D PT _ _ _ ST)]. }
    eapply Forall_impl; [|exact T]. intros k [K _]. exact K. }
  assert (W' : (let* t := format_code (optimize db o) in l_write loc t) = Ok y) by (destruct dst; exact H). clear H. unfold format_code in W'.
  destruct (code_run 0 (optimize db o)) as [[m lines]|] eqn:T; [|discriminate]. cbn [bind] in W'.
  destruct (code_serializes _ 0 m lines T) as [b S].
  destruct (FA (concat lines) (simple_code _ C 0 m lines T)) as [y' [Y R]]. assert (y' = y) by congruence. subst y'.
  destruct (c11 0 _ b S (name_no_nl _ C)) as [m' [lines' [T' HB]]]. assert (lines' = lines) by congruence. subst lines'.
  exists (concat lines). split; [exact R|]. apply c61. exists b. split; [exact HB|]. unfold compile. rewrite E. exact S.
Qed.

(* ------------------------------------------------------------------ *)
(** C62: named files *)

Lemma c62_text loc db fin src src' fout dst dst' opt content : text_format fin -> text_format fout ->
  converter_tool loc db fin src fout dst opt content = converter_tool loc db fin src' fout dst' opt content /\
  decompiler_tool loc db fin src content = decompiler_tool loc db fin src' content /\
  forall t, compiler_tool loc db fout dst opt t = compiler_tool loc db fout dst' opt t.
Proof. intros [-> | ->] [-> | ->]; destruct src, src', dst, dst'; (split; [reflexivity|]; split; [reflexivity|]); intros t; reflexivity. Qed.

Lemma c62_in loc db fout dst opt content : (forall t, l_read loc content = Ok t -> t <> []) ->
  (exists e, converter_tool loc db "binary" Named fout dst opt content = Err e) /\
  (exists e, decompiler_tool loc db "binary" Named content = Err e).
Proof.
  intros N. unfold converter_tool, decompiler_tool. change (Tools.get "binary") with (Ok FBinary). cbn [bind read_items].
  destruct (l_read loc content) as [[|c t]|e]; [destruct (N [] eq_refl eq_refl)| |]; cbn [appended finished bind x_run];
    (split; [destruct (Tools.get fout); cbn [bind]; eauto|eauto]).
Qed.

Lemma c62_out loc db fin src opt content b : b <> [] -> converter_tool loc db fin src "binary" Standard opt content = Ok b ->
  converter_tool loc db fin src "binary" Named opt content = Err TypeError.
Proof.
  intros N. unfold converter_tool. change (Tools.get "binary") with (Ok FBinary). destruct (Tools.get fin) as [i|]; [|discriminate]. cbn [bind].
  destruct (finished _); [|discriminate]. cbn [bind write_items]. destruct (if opt then _ else _) as [|k l]; cbn [serialize]; [congruence|].
  destruct (bytes k); [reflexivity|discriminate].
Qed.

Lemma c62_compile loc db opt t b : b <> [] -> compiler_tool loc db "binary" Standard opt t = Ok b ->
  compiler_tool loc db "binary" Named opt t = Err TypeError.
Proof.
  intros N. unfold compiler_tool. change (Tools.get "binary") with (Ok FBinary). cbn [bind]. destruct (stream_items db t); [|discriminate]. cbn [bind write_items].
  destruct (if opt then _ else _) as [|k l]; cbn [serialize]; [congruence|]. destruct (bytes k); [reflexivity|discriminate].
Qed.

Lemma c62_binary loc db :
  (forall fout dst opt content, (forall t, l_read loc content = Ok t -> t <> []) ->
     (exists e, converter_tool loc db "binary" Named fout dst opt content = Err e) /\
     (exists e, decompiler_tool loc db "binary" Named content = Err e)) /\
  (forall fin src opt content b, b <> [] ->
     converter_tool loc db fin src "binary" Standard opt content = Ok b ->
     converter_tool loc db fin src "binary" Named opt content = Err TypeError) /\
  (forall opt t b, b <> [] -> compiler_tool loc db "binary" Standard opt t = Ok b ->
     compiler_tool loc db "binary" Named opt t = Err TypeError).
Proof. split; [exact (c62_in loc db)|]. split; [exact (c62_out loc db)|exact (c62_compile loc db)]. Qed.

Lemma plain_after h : plain_registry (db_after h).
Proof.
  intros z n ks E. pose proof (clean_after printable printable_self h z n ks E) as C.
  eapply Forall_impl; [|exact C]. intros c P. apply printable_plain. exact P.
Qed.

Lemma get_other name : ~ In name ["binary"; "hex"; "code"]%string -> Tools.get name = Err KeyError.
Proof.
  intros N. unfold Tools.get.
  destruct (String.eqb_spec name "binary") as [->|_]; [exfalso; apply N; cbn; tauto|].
  destruct (String.eqb_spec name "hex") as [->|_]; [exfalso; apply N; cbn; tauto|].
  destruct (String.eqb_spec name "code") as [->|_]; [exfalso; apply N; cbn; tauto|]. reflexivity.
Qed.

Lemma get_fails name e : Tools.get name = Err e -> e = KeyError.
Proof. unfold Tools.get. destruct (String.eqb name "binary"), (String.eqb name "hex"), (String.eqb name "code"); congruence. Qed.

Lemma c59_formats loc db name :
  ~ In name ["binary"; "hex"; "code"]%string ->
  (forall src fout dst opt content, converter_tool loc db name src fout dst opt content = Err KeyError) /\
  (forall fin src dst opt content, converter_tool loc db fin src name dst opt content = Err KeyError) /\
  (forall dst opt t, compiler_tool loc db name dst opt t = Err KeyError) /\
  (forall src content, decompiler_tool loc db name src content = Err KeyError).
Proof.
  intros N. apply get_other in N. unfold converter_tool, compiler_tool, decompiler_tool. rewrite N.
  split; [reflexivity|]. split; [|split; reflexivity].
  intros fin src dst opt content. cbn [bind]. destruct (Tools.get fin) as [f|e] eqn:G; [reflexivity|].
  apply get_fails in G. subst e. reflexivity.
Qed.
