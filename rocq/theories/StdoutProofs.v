(* StdoutProofs.v -- the decompiler talks as StdoutSpec says *)
From Coq Require Import ZArith List Bool Lia ZifyBool ZifyNat String Ascii.
From Verif Require Import Py Usage Item Parser Optimizer Descriptor Extractor TextFormats Dumper Tools Stdout.
From Verif Require Import HidSpec Spec ItemFacts ParserFacts CodecProofs UsageProofs TextProofs StreamSpec PlainHost StreamProofs StreamTree OptFacts OptSpec AllSpec PassFacts.
From Verif Require Import TreeOpt ExtractSpec ExtractFacts ExtractView ExtractAgain ExtractBack AcceptSpec ExtractAccept AcceptBlob BackSpec BytesBack.
From Verif Require Import PyExpr DumpSpec DumpFacts DumpProofs NameFacts NameTree DumpCompile DumpExtract VerdictSpec VerdictProofs StdoutSpec.
Import ListNotations.
Local Open Scope list_scope.
Local Open Scope Z_scope.

Lemma onward_step db s i g run s' : constructed i -> canon db i -> digs db s g run -> x_append db s i = Ok s' ->
  let r := lsight g run i in
  digs db s' (fst (fst r)) (snd (fst r)) /\
  fold_left (fun p e => onward db (fst p) (snd p) e) (snd r) (lrooms s, x_innamed s) = (lrooms s', x_innamed s').
Proof.
  intros C CA D H. pose proof (verdict_step db s i g run [] C CA D) as V. rewrite H in V. destruct V as [D' _].
  split; [exact D'|]. clear D'. pose proof D as [A L NC NP HD KH KU KM]. unfold lsight.
  destruct (kind_of (ic i)) eqn:K.
  - set (s0 := expand_ranges s) in *.
    destruct (data_tag (ic i)) eqn:DT.
    + assert (MK : hid_kind (ic i) = KMain) by (destruct (ic i); try discriminate DT; reflexivity).
      rewrite MK. cbn [fst snd fold_left]. set (us := usages_told (g_page g) run).
      pose proof (handle_judged db s i g run D DT) as J. fold us in J. fold s0 in J.
      assert (V : forall rs ins, onward db rs ins (g, us, ic i, ival i) =
        match judged db rs g us (ival i) with inl _ => (rs, ins) | inr (rs', b) => (rs', ins || b) end)
        by (intros; destruct (ic i); try discriminate DT; reflexivity).
      rewrite V. clear V.
      assert (XA : x_append db s i = let* s1 := handle_data db s0 i in Ok (locals_clear s1)).
      { unfold x_append, ikd. rewrite K. fold s0. destruct (ic i); try discriminate DT; reflexivity. }
      rewrite XA in H. destruct (handle_data db s0 i) as [s1|e] eqn:E1; cbn [bind] in H; [|discriminate H]. injection H as <-.
      destruct J as [b [J1 [J2 J3]]]. rewrite J1. cbn [locals_clear x_innamed]. rewrite J2. reflexivity.
    + unfold x_append, ikd in H. rewrite K in H. fold s0 in H.
      destruct (ic i) eqn:EC; try discriminate K; try discriminate DT; cbn [hid_kind fst snd fold_left onward].
      * cbn [bind] in H. injection H as <-.
        destruct (x_usage_told db s run g 0 L A) as [EU _]. fold s0 in EU.
        assert (HE : hd_error (usages_told (g_page g) run) = option_map py_int (x_usage db s0 0)).
        { rewrite EU. destruct (usages_told (g_page g) run); reflexivity. }
        rewrite HE. reflexivity.
      * change (x_innamed s0) with (x_innamed s) in H. destruct (x_innamed s) eqn:IN.
        -- cbn [bind set_levels x_stack] in H. change (x_stack s0) with (x_stack s) in H. change (x_current s0) with (x_current s) in H.
           injection H as <-. unfold lrooms. destruct (x_stack s) eqn:ES; reflexivity.
        -- unfold x_leave in H. change (x_stack s0) with (x_stack s) in H. destruct (x_stack s) as [|p r] eqn:ES; cbn [bind] in H; [discriminate H|].
           destruct HD as [HN HD]. destruct (lv_head (x_current s)) as [[k u]|] eqn:EH; [|congruence]. clear HN.
           unfold lrooms at 1. rewrite ES. cbn [flat_map]. assert (LR : lroom (x_current s) = [(py_int k, option_map py_int u, any (lv_members (x_current s)))]) by (unfold lroom; rewrite EH; reflexivity).
           rewrite LR. cbn [app]. change (x_current s0) with (x_current s) in H. change (x_innamed s0) with (x_innamed s) in H. rewrite IN in H.
           set (kept := match lv_members (x_current s) with [] => [] | _ :: _ => close_level (x_current s) end) in *.
           set (p' := Level (lv_head p) (lv_members p ++ kept)) in *. cbn [set_levels x_stack] in H.
           set (s1 := set_levels s0 r p' false).
           assert (RM : lrooms s1 = if any (lv_members (x_current s)) then furnish (lroom p ++ flat_map lroom r) else lroom p ++ flat_map lroom r).
           { unfold lrooms. cbn [flat_map]. change (x_current s1) with p'. change (x_stack s1) with r. unfold lroom at 1 3 5. subst p'. cbn [lv_head lv_members].
             rewrite any_app. unfold kept, close_level. rewrite EH. destruct (lv_members (x_current s)); cbn [any]; rewrite ?orb_false_r, ?orb_true_r.
             - reflexivity.
             - destruct (lv_head p) as [[? ?]|] eqn:PH; [reflexivity|]. cbn [app]. destruct r as [|q r]; [reflexivity|]. destruct HD as [HD _]. congruence. }
           rewrite <- RM. injection H as <-. destruct r; reflexivity.
  - assert (MK : hid_kind (ic i) = KGlobal) by (destruct (ic i); try discriminate K; reflexivity).
    rewrite MK. cbn [snd fold_left]. unfold x_append, ikd in H. rewrite K in H. injection H as <-. reflexivity.
  - assert (MK : hid_kind (ic i) = KLocal) by (destruct (ic i); try discriminate K; reflexivity).
    rewrite MK. cbn [snd fold_left]. unfold x_append, ikd in H. rewrite K in H. injection H as <-.
    destruct (ic i); reflexivity.
Qed.

Lemma contiguous_row l : contiguous l = in_a_row (map py_int l).
Proof.
  induction l as [|x l IH]; [reflexivity|]. cbn [contiguous map in_a_row]. destruct l as [|y l]; [reflexivity|].
  rewrite IH. cbn [map]. f_equal. rewrite Z.eqb_sym. reflexivity.
Qed.

Lemma error_remark l : match range_error l with Some m => m ++ line | None => [] end = lines (remark (map py_int l)).
Proof.
  unfold range_error, remark. rewrite map_length. destruct l as [|x [|y l]].
  - unfold lines. cbn [length Nat.ltb Nat.leb flat_map]. rewrite app_nil_r. reflexivity.
  - unfold lines. cbn [length Nat.ltb Nat.leb flat_map]. rewrite app_nil_r. reflexivity.
  - rewrite <- contiguous_row. cbn [length Nat.ltb Nat.leb]. destruct (contiguous (x :: y :: l)); [reflexivity|].
    unfold lines. cbn [flat_map]. rewrite app_nil_r. reflexivity.
Qed.

Lemma prints_remarked db s i g run : digs db s g run -> kind_of (ic i) = Main ->
  x_prints db s i = lines (remarked db (lrooms s) (g, usages_told (g_page g) run, ic i, ival i)).
Proof.
  intros D K. destruct D as [A L NC NP HD KH KU KM] eqn:ED. set (us := usages_told (g_page g) run).
  assert (P : data_prints db (expand_ranges s) i =
    lines (if (ival i =? 0) && spanning g us then match stands_alone db (lrooms s) (g_count g =? 1) (ival i) with inr false => remark us | _ => [] end else [])).
  { set (s0 := expand_ranges s) in *.
    assert (GV : forall c, gval s0 c = gval s c) by reflexivity.
    assert (HD0 : heads (x_current s0) (x_stack s0)) by exact HD.
    assert (KH0 : Forall (known_head db) (x_current s0 :: x_stack s0)) by exact KH.
    pose proof (list_told db s run g L A) as LT. fold s0 us in LT.
    unfold data_prints. rewrite error_remark, LT. clear LT.
    destruct (x_usage_told db s run g 0 L A) as [_ LEN]. fold s0 us in LEN.
    rewrite LEN, !GV, (ag_count _ _ A), (ag_lmax _ _ A), (ag_lmin _ _ A). unfold spanning.
    set (spans := Z.of_nat (length us) =? g_lmax g - g_lmin g + 1) in *.
    change (lrooms s) with (lrooms s0).
    destruct (ival i =? 0) eqn:Z0.
    2:{ cbn [andb]. destruct (negb _); [reflexivity|]. destruct (if _ && _ then _ else _) as [[]|]; reflexivity. }
    apply Z.eqb_eq in Z0. rewrite Z0. change (negb (Z.land 0 fl_Constant =? 0)) with false. cbn [andb].
    assert (IN : (if (g_count g =? 1) && spans then in_named_collection db s0 i else Ok false) =
      match stands_alone db (lrooms s0) ((g_count g =? 1) && spans) 0 with inl e => Err e | inr b => Ok b end).
    { rewrite <- Z0. unfold stands_alone. destruct ((g_count g =? 1) && spans); [|reflexivity]. unfold in_named_collection, lrooms. cbn [flat_map]. unfold lroom at 1.
      destruct (lv_head (x_current s0)) as [[k u]|] eqn:EH; cbn [app].
      - change fl_Variable with 2. destruct ((ival i =? 2) && (py_int k =? 4)); [reflexivity|]. destruct (py_int k =? 2); [|reflexivity].
        destruct u as [u|]; cbn [option_map]; [|reflexivity].
        apply Forall_inv in KH0. unfold known_head in KH0. rewrite EH in KH0. exact KH0.
      - destruct (x_stack s0) as [|p r]; [reflexivity|]. destruct HD0 as [HD0 _]. congruence. }
    rewrite IN. destruct spans.
    - rewrite andb_true_r. destruct (stands_alone db (lrooms s0) (g_count g =? 1) 0) as [e|[]]; reflexivity.
    - rewrite andb_false_r. reflexivity. }
  unfold x_prints, remarked. destruct (ic i); try discriminate K; try reflexivity; exact P.
Qed.

Lemma says_run db l : forall s g run s', Forall constructed l -> Forall (canon db) l -> digs db s g run -> x_run db s l = Ok s' ->
  x_says db s l = lines (remarks db (lrooms s) (x_innamed s) (sights g run (map cv l))).
Proof.
  induction l as [|i l IH]; intros s g run s' C CA D H; [reflexivity|].
  inversion C as [|? ? C1 C2]; subst. inversion CA as [|? ? CA1 CA2]; subst.
  cbn [x_run] in H. destruct (x_append db s i) as [s1|e] eqn:E1; cbn [bind] in H; [|discriminate H].
  destruct (onward_step db s i g run s1 C1 CA1 D E1) as [D1 O].
  cbn [x_says map]. rewrite E1.
  assert (SI : sights g run (cv i :: map cv l) = snd (lsight g run i) ++ sights (fst (fst (lsight g run i))) (snd (fst (lsight g run i))) (map cv l)).
  { unfold lsight, cv. cbn [sights]. destruct (hid_kind (ic i)); reflexivity. }
  rewrite SI. clear SI. specialize (IH s1 _ _ s' C2 CA2 D1 H). rewrite IH. clear IH.
  set (es := sights _ _ (map cv l)). clearbody es. unfold lsight in O |- *.
  destruct (kind_of (ic i)) eqn:K.
  - assert (MK : hid_kind (ic i) = KMain) by (destruct (ic i); try discriminate K; reflexivity).
    rewrite MK in O |- *. cbn [fst snd fold_left app remarks] in O |- *. rewrite (prints_remarked db s i g run D K), O.
    unfold lines. rewrite flat_map_app. reflexivity.
  - assert (MK : hid_kind (ic i) = KGlobal) by (destruct (ic i); try discriminate K; reflexivity).
    rewrite MK in O |- *. cbn [fst snd fold_left app] in O |- *. injection O as -> ->.
    assert (X : x_prints db s i = []) by (unfold x_prints; destruct (ic i); try discriminate K; reflexivity). rewrite X. reflexivity.
  - assert (MK : hid_kind (ic i) = KLocal) by (destruct (ic i); try discriminate K; reflexivity).
    rewrite MK in O |- *. cbn [fst snd fold_left app] in O |- *. injection O as -> ->.
    assert (X : x_prints db s i = []) by (unfold x_prints; destruct (ic i); try discriminate K; reflexivity). rewrite X. reflexivity.
Qed.

Lemma c92_exactly db blob ws s : blob_means blob ws -> Forall number_allowed ws -> decompile_text db blob = Ok s ->
  decompile_stdout db blob = Ok (lines (remarks db [] false (sights g_init [] (map w_what ws))) ++ s).
Proof.
  intros B N H. unfold decompile_stdout. rewrite H. cbn [bind]. f_equal. f_equal.
  destruct (parse_good db 0 blob ws B (proj1 (allowed_forall ws) N)) as [l [PA [M C]]].
  assert (CA : Forall (canon db) l).
  { pose proof (parsed_canon (length blob) db 0 blob) as PC. fold (parse_from db 0 blob) in PC. rewrite PA in PC. exact PC. }
  change (map w_what ws) with (map wcv ws). rewrite <- M.
  unfold decompile_text, decompile in H. rewrite blob_parse_from, PA in H |- *. cbn [finished appended bind] in H |- *.
  destruct (x_run db xst_init l) as [s'|e] eqn:X; cbn [bind] in H; [|discriminate H].
  assert (D : digs db xst_init g_init []).
  { split; [apply agree_init|split; [reflexivity|reflexivity|reflexivity|constructor]|cbn; lia|cbn; lia|reflexivity|constructor; [exact I|constructor]|constructor|discriminate]. }
  exact (says_run db l xst_init g_init [] s' C CA D X).
Qed.

Lemma row_all us : (forall k, (S k < length us)%nat -> nth (S k) us 0 = nth k us 0 + 1) -> in_a_row us = true.
Proof.
  induction us as [|a us IH]; [reflexivity|]. intros H. cbn [in_a_row]. destruct us as [|b us]; [reflexivity|].
  apply andb_true_iff. split.
  - specialize (H 0%nat ltac:(cbn; lia)). cbn [nth] in H. lia.
  - apply IH. intros k Hk. exact (H (S k) ltac:(cbn [length] in *; lia)).
Qed.

Lemma tidy_quiet db rs e : tidy e -> remarked db rs e = [].
Proof.
  destruct e as [[[g us] c] f]. unfold tidy, remarked. intros T.
  assert (Q : (c = Input \/ c = Output \/ c = Feature) ->
    (if (f =? 0) && spanning g us then match stands_alone db rs (g_count g =? 1) f with inr false => remark us | _ => [] end else []) = []).
  { intros I. specialize (T I). destruct (f =? 0) eqn:F; [|reflexivity]. destruct (spanning g us) eqn:S; [|reflexivity]. cbn [andb].
    unfold spanning in S. destruct T as [T1 T2]; [lia|lia|].
    assert (R : remark us = []).
    { unfold remark. rewrite (row_all us T2). destruct (Nat.ltb_spec (length us) 2); [lia|reflexivity]. }
    rewrite R. destruct (stands_alone _ _ _ _) as [|[]]; reflexivity. }
  destruct c; try reflexivity; apply Q; auto.
Qed.

Lemma tidy_all db es : forall rs b, Forall tidy es -> remarks db rs b es = [].
Proof.
  induction es as [|e es IH]; intros rs b F; [reflexivity|]. inversion F; subst. cbn [remarks].
  rewrite tidy_quiet by assumption. destruct (onward db rs b e). apply IH. assumption.
Qed.

Lemma c92_tidy db blob ws s : blob_means blob ws -> Forall number_allowed ws -> Forall tidy (sights g_init [] (map w_what ws)) ->
  decompile_text db blob = Ok s -> decompile_stdout db blob = Ok s.
Proof. intros B N T H. rewrite (c92_exactly db blob ws s B N H), tidy_all by exact T. reflexivity. Qed.

(** a text that begins with a remark is no script *)
Lemma script_first s t : script s t -> exists r, s = "f"%char :: r.
Proof. intros [body [e [-> _]]]. eexists. reflexivity. Qed.

Lemma remark_first us m : In m (remark us) -> exists r, m = "N"%char :: r \/ m = "C"%char :: r.
Proof.
  unfold remark. destruct (Nat.ltb _ _); [intros [<-|[]]; eexists; right; reflexivity|].
  destruct (in_a_row us); [intros []|]. intros [<-|[]]; eexists; left; reflexivity.
Qed.

Lemma remarked_first db rs e m : In m (remarked db rs e) -> exists r, m = "N"%char :: r \/ m = "C"%char :: r.
Proof.
  destruct e as [[[g us] c] f]. unfold remarked.
  destruct c; try (intros []); (destruct ((f =? 0) && spanning g us); [|intros []]);
    (destruct (stands_alone _ _ _ _) as [|[]]; try (intros []); apply remark_first).
Qed.

Lemma remarks_first db es : forall rs b m, In m (remarks db rs b es) -> exists r, m = "N"%char :: r \/ m = "C"%char :: r.
Proof.
  induction es as [|e es IH]; intros rs b m I; [destruct I|]. cbn [remarks] in I. apply in_app_or in I. destruct I as [I|I].
  - eapply remarked_first. exact I.
  - destruct (onward db rs b e). eapply IH. exact I.
Qed.

Lemma c92_only db blob ws s out t : blob_means blob ws -> Forall number_allowed ws -> decompile_text db blob = Ok s ->
  decompile_stdout db blob = Ok out -> script out t -> remarks db [] false (sights g_init [] (map w_what ws)) = [] /\ out = s.
Proof.
  intros B N H O SC. rewrite (c92_exactly db blob ws s B N H) in O. injection O as <-.
  destruct (remarks db [] false _) as [|m ms] eqn:R; [split; reflexivity|]. exfalso.
  destruct (remarks_first db (sights g_init [] (map w_what ws)) [] false m) as [r Hr]; [rewrite R; left; reflexivity|].
  apply script_first in SC. destruct SC as [r' SC]. unfold lines in SC. cbn [flat_map] in SC. destruct Hr as [-> | ->]; discriminate SC.
Qed.

Lemma c92_tool loc db dst blob : decompiler_run loc db "binary" Standard dst blob =
  let* s := decompile_text db blob in
  match dst with
  | Standard => let* out := decompile_stdout db blob in Ok (out, [])
  | Named => Ok (x_says db xst_init (appended (blob_parse db blob)), s)
  end.
Proof.
  unfold decompiler_run. change (get "binary") with (Ok FBinary). cbn [bind].
  assert (E : decompiler_tool loc db "binary" Standard blob = decompile_text db blob).
  { unfold decompiler_tool, decompile_text, decompile. change (get "binary") with (Ok FBinary). cbn [bind read_items].
    destruct (x_run _ _ _) as [s|e]; cbn [bind]; [|reflexivity]. destruct (finished _); cbn [bind]; [|reflexivity]. destruct (x_root s); reflexivity. }
  rewrite E. cbn [read_items]. unfold decompile_stdout. destruct (decompile_text db blob) as [s|e]; cbn [bind]; [|reflexivity].
  destruct dst; reflexivity.
Qed.
