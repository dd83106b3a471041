(* TextProofs.v -- the hex and C text formats *)
From Coq Require Import ZifyBool ZifyNat Wf_nat.
From Verif Require Import Py Usage Item Parser HidSpec Spec ItemFacts ParserFacts CodecProofs TextFormats.
Ltac Zify.zify_post_hook ::= Z.div_mod_to_equations.

(* ------------------------------------------------------------------ *)
(** Specification of the hex text: maximal words, and which of them are
    bytes. *)

(** value of a hexadecimal digit: its rank in 0..9a..f or 0..9A..F *)
Fixpoint rank (c : ascii) (l : list ascii) : option Z :=
  match l with
  | [] => None
  | d :: r => if Ascii.eqb c d then Some 0
              else match rank c r with Some k => Some (k + 1) | None => None end
  end.

Definition digit (c : ascii) : option Z :=
  match rank c (list_ascii_of_string "0123456789abcdef") with
  | Some k => Some k
  | None => rank c (list_ascii_of_string "0123456789ABCDEF")
  end.

Definition letters : string :=
  "abcdefghijklmnopqrstuvwxyzABCDEFGHIJKLMNOPQRSTUVWXYZ0123456789_".

(** word characters: letters, digits, underscore *)
Definition wordchar (c : ascii) : bool :=
  match rank c (list_ascii_of_string letters) with Some _ => true | None => false end.

(** maximal runs of word characters, with empty runs between adjacent
    separators *)
Fixpoint words (t : text) : list text :=
  match t with
  | [] => [[]]
  | c :: r =>
      if wordchar c then
        match words r with
        | w :: ws => (c :: w) :: ws
        | [] => [[c]]
        end
      else [] :: words r
  end.

Definition two_digits (a b : ascii) : list Z :=
  match digit a, digit b with
  | Some x, Some y => [16 * x + y]
  | _, _ => []
  end.

(** the bytes denoted by a word: one if it is two hexadecimal digits, with or
    without 0x, else none *)
Definition word_bytes (w : text) : list Z :=
  match w with
  | [a; b] => two_digits a b
  | [z; x; a; b] => if Ascii.eqb z "0" && Ascii.eqb x "x" then two_digits a b else []
  | _ => []
  end.

Definition all_ascii : list ascii := map ascii_of_nat (seq 0 256).

Lemma all_ascii_in c : In c all_ascii.
Proof.
  unfold all_ascii. rewrite <- (ascii_nat_embedding c). apply in_map. apply in_seq.
  pose proof (nat_ascii_bounded c). lia.
Qed.

Lemma for_ascii (P : ascii -> bool) : forallb P all_ascii = true -> forall c, P c = true.
Proof. intros H c. rewrite forallb_forall in H. apply H. apply all_ascii_in. Qed.

Definition opt_Z_eqb' (a b : option Z) : bool :=
  match a, b with Some x, Some y => x =? y | None, None => true | _, _ => false end.

Lemma wordchar_ok c : is_word c = wordchar c.
Proof.
  apply eqb_prop. revert c. apply for_ascii. vm_compute. reflexivity.
Qed.

Lemma digit_ok c : digit c = if is_hex c then Some (hex_val c) else None.
Proof.
  assert (H : forall c, opt_Z_eqb' (digit c) (if is_hex c then Some (hex_val c) else None) = true).
  { apply for_ascii. vm_compute. reflexivity. }
  specialize (H c). destruct (digit c), (if is_hex c then Some (hex_val c) else None);
    simpl in H; try discriminate; auto. f_equal. lia.
Qed.

Lemma hex_word c : is_hex c = true -> is_word c = true.
Proof.
  assert (H : forall c, implb (is_hex c) (is_word c) = true).
  { apply for_ascii. vm_compute. reflexivity. }
  specialize (H c). destruct (is_hex c); auto. discriminate.
Qed.

Lemma words_cons t : exists w ws, words t = w :: ws.
Proof.
  destruct t as [|c r]; simpl; eauto. destruct (wordchar c); eauto.
  destruct (words r); eauto.
Qed.

Lemma word_head_spec t : word_head t = match hd [] (words t) with [] => false | _ => true end.
Proof.
  destruct t as [|c r]; auto. simpl. rewrite wordchar_ok. destruct (wordchar c); auto.
  destruct (words r); auto.
Qed.

Lemma tl_words_false t : word_head t = false -> flat_map word_bytes (tl (words t)) = flat_map word_bytes (words t).
Proof.
  intros H. rewrite word_head_spec in H. destruct (words_cons t) as [w [ws E]]. rewrite E in *.
  simpl in H. destruct w; [reflexivity|discriminate].
Qed.

Lemma two_digits_ok a b :
  two_digits a b = if is_hex a && is_hex b then [16 * hex_val a + hex_val b] else [].
Proof.
  unfold two_digits. rewrite !digit_ok. destruct (is_hex a), (is_hex b); reflexivity.
Qed.

Lemma code_0 c : (code c =? 48) = Ascii.eqb c "0".
Proof. apply eqb_prop. revert c. apply for_ascii. vm_compute. reflexivity. Qed.
Lemma code_x c : (code c =? 120) = Ascii.eqb c "x".
Proof. apply eqb_prop. revert c. apply for_ascii. vm_compute. reflexivity. Qed.

Lemma words_word c t : is_word c = true -> words (c :: t) = (c :: hd [] (words t)) :: tl (words t).
Proof.
  intros H. simpl. rewrite <- wordchar_ok, H. destruct (words_cons t) as [w [ws ->]]. reflexivity.
Qed.
Lemma words_sep c t : is_word c = false -> words (c :: t) = [] :: words t.
Proof. intros H. simpl. rewrite <- wordchar_ok, H. reflexivity. Qed.

Lemma hex_scan_unfold c d r2 :
  hex_scan false (c :: d :: r2) =
  let short := if is_hex c && is_hex d && negb (word_head r2)
               then 16 * hex_val c + hex_val d :: hex_scan true r2
               else hex_scan (is_word c) (d :: r2) in
  if (code c =? 48) && (code d =? 120) then
    match r2 with
    | a :: b :: r4 =>
        if is_hex a && is_hex b && negb (word_head r4)
        then 16 * hex_val a + hex_val b :: hex_scan true r4
        else short
    | _ => short
    end
  else short.
Proof. reflexivity. Qed.

Lemma hex_scan_words n : forall t, (length t <= n)%nat ->
  hex_scan false t = flat_map word_bytes (words t) /\
  hex_scan true t = flat_map word_bytes (tl (words t)).
Proof.
  induction n as [|n IH]; intros t L.
  { destruct t; [|simpl in L; lia]. split; reflexivity. }
  destruct t as [|c r]; [split; reflexivity|]. simpl in L.
  destruct (IH r ltac:(lia)) as [IF IT].
  assert (next : hex_scan (is_word c) r = flat_map word_bytes (tl (words (c :: r)))).
  { destruct (is_word c) eqn:W.
    - rewrite words_word by auto. exact IT.
    - rewrite words_sep by auto. exact IF. }
  split; [|exact next].
  destruct r as [|d r2].
  { simpl hex_scan. cbn [words]. destruct (wordchar c); reflexivity. }
  cbn [length] in L.
  destruct (is_word c) eqn:Wc.
  2:{ (* separator *)
    rewrite words_sep by auto. cbn [flat_map word_bytes app]. rewrite words_sep in next by auto.
    cbn [tl] in next.
    assert (Hc : is_hex c = false).
    { destruct (is_hex c) eqn:E; auto. apply hex_word in E. congruence. }
    assert (H0 : (code c =? 48) = false).
    { destruct (code c =? 48) eqn:E; auto. rewrite code_0 in E. apply Ascii.eqb_eq in E. subst.
      discriminate. }
    rewrite hex_scan_unfold. rewrite Hc, H0, Wc. cbn [andb]. exact next. }
  rewrite words_word by auto. cbn [flat_map].
  rewrite words_word in next by auto. cbn [tl] in next.
  (* short case of the code *)
  assert (short : (if is_hex c && is_hex d && negb (word_head r2)
              then 16 * hex_val c + hex_val d :: hex_scan true r2
              else hex_scan (is_word c) (d :: r2)) =
     match c :: hd [] (words (d :: r2)) with [a; b] => two_digits a b | _ => [] end
     ++ flat_map word_bytes (tl (words (d :: r2)))).
  { rewrite Wc. destruct (is_word d) eqn:Wd.
    - rewrite (words_word d) in * by auto. cbn [hd tl] in *.
      rewrite word_head_spec.
      destruct (hd [] (words r2)) as [|e w]; cbn [negb andb].
      + rewrite two_digits_ok, andb_true_r. destruct (is_hex c && is_hex d); [|exact next].
        rewrite (proj2 (IH r2 ltac:(lia))). reflexivity.
      + rewrite andb_false_r. exact next.
    - rewrite (words_sep d) in * by auto. cbn [hd tl] in *.
      assert (Hd : is_hex d = false).
      { destruct (is_hex d) eqn:E; auto. apply hex_word in E. congruence. }
      rewrite Hd, andb_false_r. cbn [andb app]. exact next. }
  rewrite hex_scan_unfold. cbv zeta. destruct ((code c =? 48) && (code d =? 120)) eqn:E0.
  - apply andb_true_iff in E0. destruct E0 as [E0 E1]. rewrite code_0 in E0. rewrite code_x in E1.
    apply Ascii.eqb_eq in E0. apply Ascii.eqb_eq in E1. subst c d.
    rewrite !short. rewrite (words_word "x") in * by auto. cbn [hd tl] in *.
    clear short.
    assert (short : match "0"%char :: "x"%char :: hd [] (words r2) with
                    | [a; b] => two_digits a b | _ => [] end = []).
    { destruct (hd [] (words r2)); reflexivity. }
    rewrite short. cbn [app].
    destruct r2 as [|a [|b r4]].
    + reflexivity.
    + cbn [words]. destruct (wordchar a); reflexivity.
    + destruct (is_word a) eqn:Wa.
      2:{ assert (Ha : is_hex a = false).
          { destruct (is_hex a) eqn:E; auto. apply hex_word in E. congruence. }
          rewrite Ha. cbn [andb]. rewrite (words_sep a) by auto. cbn [hd tl word_bytes].
          change (word_bytes ["0"%char; "x"%char]) with (@nil Z). reflexivity. }
      rewrite (words_word a) by auto. cbn [hd tl].
      destruct (is_word b) eqn:Wb.
      2:{ assert (Hb : is_hex b = false).
          { destruct (is_hex b) eqn:E; auto. apply hex_word in E. congruence. }
          rewrite Hb, andb_false_r. cbn [andb]. rewrite (words_sep b) by auto. reflexivity. }
      rewrite (words_word b) by auto. cbn [hd tl]. rewrite word_head_spec.
      destruct (hd [] (words r4)) as [|e w]; cbn [negb].
      * rewrite andb_true_r. cbn [word_bytes]. rewrite !Ascii.eqb_refl. cbn [andb].
        rewrite two_digits_ok. destruct (is_hex a && is_hex b); [|reflexivity].
        cbn [length] in L. rewrite (proj2 (IH r4 ltac:(lia))). reflexivity.
      * rewrite andb_false_r. reflexivity.
  - rewrite short. f_equal.
    destruct (words_cons (d :: r2)) as [w [ws EW]].
    rewrite EW. cbn [hd]. unfold word_bytes.
    destruct w as [|x [|y [|z [|]]]]; auto.
    (* four characters, not 0x *)
    destruct (is_word d) eqn:Wd.
    + rewrite words_word in EW by auto. injection EW as -> EW _.
      rewrite <- code_0, <- code_x. rewrite E0. reflexivity.
    + rewrite words_sep in EW by auto. discriminate.
Qed.

Lemma hex_words t : hex_blob t = flat_map word_bytes (words t).
Proof. apply (proj1 (hex_scan_words (length t) t (le_n _))). Qed.

(** A text made of separators and two-digit tokens *)
Inductive tokens : text -> list Z -> Prop :=
| tk_end : tokens [] []
| tk_sep c r l : wordchar c = false -> tokens r l -> tokens (c :: r) l
| tk_last w v : word_bytes w = [v] -> tokens w [v]
| tk_tok w v c r l :
    word_bytes w = [v] -> wordchar c = false -> tokens r l -> tokens (w ++ c :: r) (v :: l).

Lemma word_bytes_chars w v : word_bytes w = [v] -> Forall (fun c => wordchar c = true) w.
Proof.
  assert (D : forall a b x, two_digits a b = [x] -> wordchar a = true /\ wordchar b = true).
  { intros a b x. rewrite two_digits_ok. destruct (is_hex a) eqn:A; [|discriminate].
    destruct (is_hex b) eqn:B; [|discriminate]. intros _. rewrite <- !wordchar_ok.
    split; apply hex_word; auto. }
  unfold word_bytes. destruct w as [|a [|b [|c [|d [|]]]]]; try discriminate.
  - intros H. apply D in H. destruct H. repeat constructor; auto.
  - destruct (Ascii.eqb a "0") eqn:E1; [|discriminate].
    destruct (Ascii.eqb b "x") eqn:E2; [|discriminate]. simpl.
    apply Ascii.eqb_eq in E1. apply Ascii.eqb_eq in E2. subst.
    intros H. apply D in H. destruct H. repeat constructor; auto.
Qed.

Lemma words_app w c r :
  Forall (fun c => wordchar c = true) w -> wordchar c = false ->
  words (w ++ c :: r) = w :: words r.
Proof.
  intros F N. induction F as [|a w A _ IH]; simpl; [rewrite N; reflexivity|].
  rewrite A, IH. reflexivity.
Qed.

Lemma words_only w : Forall (fun c => wordchar c = true) w -> words w = [w].
Proof.
  intros F. induction F as [|a w A _ IH]; simpl; auto. rewrite A, IH. reflexivity.
Qed.

Lemma tokens_ok t l : tokens t l -> hex_blob t = l.
Proof.
  rewrite hex_words. induction 1 as [|c r l N _ IH|w v W|w v c r l W N _ IH]; auto.
  - simpl. rewrite N. exact IH.
  - rewrite words_only by (eapply word_bytes_chars; eauto). simpl. rewrite W. reflexivity.
  - rewrite words_app by (auto; eapply word_bytes_chars; eauto). simpl. rewrite W, IH. reflexivity.
Qed.

(** the bytes of an item are bytes *)
Lemma bytes_bytes i b : bytes i = Ok b -> Forall is_byte b.
Proof.
  intros H. apply bytes_means in H. destruct H as [raws [S _]]. eapply short_items_bytes; eauto.
Qed.

Lemma for_byte (P : Z -> bool) :
  forallb P (map Z.of_nat (seq 0 256)) = true -> forall b, is_byte b -> P b = true.
Proof.
  intros H b Hb. rewrite forallb_forall in H. apply H. unfold is_byte in Hb.
  rewrite <- (Z2Nat.id b) by lia. apply in_map, in_seq. lia.
Qed.

Lemma hex2_word b : is_byte b -> word_bytes (str (hex2 b)) = [b].
Proof.
  intros H.
  assert (E : match word_bytes (str (hex2 b)) with [x] => x =? b | _ => false end = true).
  { revert b H. apply for_byte. vm_compute. reflexivity. }
  destruct (word_bytes (str (hex2 b))) as [|x [|]]; try discriminate. f_equal. lia.
Qed.

Lemma hex_line_tokens b r l :
  Forall is_byte b -> tokens r l -> tokens (hex_line b ++ r) (b ++ l).
Proof.
  intros F T. unfold hex_line. induction F as [|x b X F IH].
  - simpl. constructor; auto.
  - destruct b as [|y b].
    + cbn [map join_text]. rewrite <- !app_assoc. cbn [app]. apply tk_tok; auto.
      apply hex2_word; auto.
    + cbn [map] in *. change (join_text (str " ") (str (hex2 x) :: str (hex2 y) :: map (fun x => str (hex2 x)) b))
        with (str (hex2 x) ++ str " " ++ join_text (str " ") (str (hex2 y) :: map (fun x => str (hex2 x)) b)).
      rewrite <- !app_assoc in *. cbn [app] in *.
      change (str " ") with [" "%char]. cbn [app]. apply tk_tok; auto. apply hex2_word; auto.
Qed.

Lemma format_hex_tokens l t b :
  format_hex l = Ok t -> serialize l = Ok b -> tokens t b.
Proof.
  revert t b. induction l as [|i l IH]; simpl; intros t b H S.
  - injection H as <-. injection S as <-. constructor.
  - destruct (bytes i) as [bi|] eqn:B; [|discriminate]. simpl in H, S.
    destruct (format_hex l) as [t'|]; [|discriminate].
    destruct (serialize l) as [b'|]; [|discriminate].
    simpl in H, S. injection H as <-. injection S as <-.
    apply hex_line_tokens; auto. eapply bytes_bytes; eauto.
Qed.

Lemma format_hex_total l b : serialize l = Ok b -> exists t, format_hex l = Ok t.
Proof.
  revert b. induction l as [|i l IH]; simpl; intros b S; [eauto|].
  destruct (bytes i) as [bi|]; [|discriminate]. simpl in *.
  destruct (serialize l) as [b'|]; [|discriminate]. destruct (IH b' eq_refl) as [t ->]. simpl. eauto.
Qed.

Lemma c10 l b :
  serialize l = Ok b -> exists t, format_hex l = Ok t /\ hex_blob t = b.
Proof.
  intros S. destruct (format_hex_total l b S) as [t T]. exists t. split; auto.
  apply tokens_ok. eapply format_hex_tokens; eauto.
Qed.

Lemma c10_items db l b :
  Forall constructed l -> serialize l = Ok b ->
  exists t l', format_hex l = Ok t /\ parse_hex db t = Run l' (Ok tt)
             /\ Forall2 (fun i j => item_eqb i j = true) l' l.
Proof.
  intros C S. destruct (c10 l b S) as [t [T E]]. destruct (c05 db l b C S) as [l' [P Q]].
  exists t, l'. repeat split; auto. unfold parse_hex. rewrite E. exact P.
Qed.

(* ------------------------------------------------------------------ *)
(** C code text *)

Definition no_nl (t : text) : Prop := ~ In nl t.
Definition slash : ascii := "/"%char.

Lemma is_nl_eq c : is_nl c = Ascii.eqb c nl.
Proof. apply eqb_prop. revert c. apply for_ascii. vm_compute. reflexivity. Qed.
Lemma is_slash_eq c : is_slash c = Ascii.eqb c slash.
Proof. apply eqb_prop. revert c. apply for_ascii. vm_compute. reflexivity. Qed.

Lemma split_line t r : no_nl t -> split_on is_nl (t ++ nl :: r) = t :: split_on is_nl r.
Proof.
  induction t as [|c t IH]; intros N; cbn [app split_on].
  - rewrite is_nl_eq, Ascii.eqb_refl. reflexivity.
  - rewrite is_nl_eq. destruct (Ascii.eqb_spec c nl) as [->|].
    + destruct N. left. reflexivity.
    + rewrite IH; [reflexivity|]. intros X. apply N. right. exact X.
Qed.

Lemma before_slashes_ok p r : ~ In slash p -> before_slashes (p ++ slash :: slash :: r) = p.
Proof.
  induction p as [|c p IH]; intros N; cbn [app before_slashes].
  - rewrite !is_slash_eq, Ascii.eqb_refl. reflexivity.
  - rewrite is_slash_eq. destruct (Ascii.eqb_spec c slash) as [->|].
    + destruct N. left. reflexivity.
    + cbn [andb]. rewrite IH; [reflexivity|]. intros X. apply N. right. exact X.
Qed.

Lemma drop_comments_ok n t : ~ In slash t -> drop_comments n t = t.
Proof.
  revert t. induction n as [|n IH]; intros t N; [reflexivity|].
  destruct t as [|c [|d t]]; auto. cbn [drop_comments]. rewrite is_slash_eq.
  destruct (Ascii.eqb_spec c slash) as [->|].
  - destruct N. left. reflexivity.
  - cbn [andb]. rewrite IH; auto. intros X. apply N. right. exact X.
Qed.

Fixpoint list_ascii_eqb (a b : text) : bool :=
  match a, b with
  | [], [] => true
  | x :: a', y :: b' => Ascii.eqb x y && list_ascii_eqb a' b'
  | _, _ => false
  end.

Lemma list_ascii_eqb_eq a b : a = b <-> list_ascii_eqb a b = true.
Proof.
  revert b. induction a as [|x a IH]; intros [|y b]; simpl; split; intros H; try discriminate; auto.
  - injection H as -> ->. rewrite Ascii.eqb_refl. apply IH. reflexivity.
  - apply andb_true_iff in H. destruct H as [H1 H2]. apply Ascii.eqb_eq in H1. apply IH in H2. congruence.
Qed.

(* what a line leaves once comments are removed *)
Definition bare_line (b : list Z) : text := str "     " ++ ljust 30 (code_blob b) ++ str " ".

Definition byte_chars : list ascii := list_ascii_of_string "0123456789abcdefx, ".

Definition good_char (c : ascii) : bool := existsb (Ascii.eqb c) byte_chars.

Lemma hex2_good b : is_byte b -> forallb good_char (str ("0x" ++ hex2 b)) = true.
Proof. revert b. apply for_byte. vm_compute. reflexivity. Qed.

Lemma forallb_join (P : ascii -> bool) sep l :
  forallb P sep = true -> Forall (fun t => forallb P t = true) l ->
  forallb P (join_text sep l) = true.
Proof.
  intros S F. induction F as [|t l T F IH]; auto. destruct l as [|u l]; auto.
  change (join_text sep (t :: u :: l)) with (t ++ sep ++ join_text sep (u :: l)).
  rewrite !forallb_app, T, S, IH. reflexivity.
Qed.

Lemma forallb_repeat (P : ascii -> bool) c n : P c = true -> forallb P (repeat c n) = true.
Proof. intros H. induction n; simpl; auto. rewrite H. auto. Qed.

Lemma bare_good b : Forall is_byte b -> forallb good_char (bare_line b) = true.
Proof.
  intros F. unfold bare_line, ljust, code_blob. rewrite !forallb_app.
  rewrite forallb_join; auto.
  - rewrite forallb_repeat by reflexivity. reflexivity.
  - apply Forall_forall. intros t T. apply in_map_iff in T. destruct T as [x [<- X]].
    apply hex2_good. rewrite Forall_forall in F. auto.
Qed.

Lemma good_not t c : forallb good_char t = true -> good_char c = false -> ~ In c t.
Proof. intros G N I. rewrite forallb_forall in G. specialize (G c I). congruence. Qed.

Lemma code_line_split b n i :
  code_line b n i =
  bare_line b ++ slash :: slash ::
    (" "%char :: repeat " "%char (Z.to_nat (n * 4)) ++ str (item_str i)) ++ [nl].
Proof.
  unfold code_line, bare_line. rewrite <- !app_assoc. do 2 f_equal.
  change (str " // ") with ([" "; "/"; "/"; " "]%char). change (str " ") with [" "%char].
  cbn [app]. rewrite <- app_assoc. reflexivity.
Qed.

Definition contents (t : text) : text :=
  concat (map (fun l => before_slashes l ++ str " ") (split_on is_nl t)).

Lemma contents_line b n i r :
  Forall is_byte b -> no_nl (str (item_str i)) ->
  contents (code_line b n i ++ r) = bare_line b ++ str " " ++ contents r.
Proof.
  intros F N.
  set (q := " "%char :: repeat " "%char (Z.to_nat (n * 4)) ++ str (item_str i)).
  set (p := bare_line b ++ slash :: slash :: q).
  assert (L : code_line b n i ++ r = p ++ nl :: r).
  { rewrite code_line_split. fold q. unfold p. rewrite <- !app_assoc. f_equal.
    cbn [app]. do 2 f_equal. rewrite <- app_assoc. reflexivity. }
  assert (E : split_on is_nl (p ++ nl :: r) = p :: split_on is_nl r).
  { apply split_line. unfold p, no_nl. intros I. apply in_app_or in I. destruct I as [I|I].
    - revert I. apply good_not; [apply bare_good; auto|reflexivity].
    - unfold q in I. cbn [In] in I. destruct I as [I|[I|[I|I]]]; try (vm_compute in I; discriminate).
      apply in_app_or in I. destruct I as [I|I]; [|apply N; exact I].
      apply repeat_spec in I. vm_compute in I. discriminate. }
  unfold contents. rewrite L, E. cbn [map concat]. rewrite <- !app_assoc. f_equal.
  unfold p. apply before_slashes_ok.
  apply good_not; [apply bare_good; auto|reflexivity].
Qed.

Definition squeeze (t : text) : text := filter (fun c => negb (is_space c)) t.

(* "0xhh," for each byte *)
Definition tight (b : list Z) : text := flat_map (fun x => str ("0x" ++ hex2 x) ++ str ",") b.

Lemma squeeze_app a b : squeeze (a ++ b) = squeeze a ++ squeeze b.
Proof. apply filter_app. Qed.

Lemma squeeze_repeat n : squeeze (repeat " "%char n) = [].
Proof. induction n; auto. Qed.

Lemma squeeze_hex x : is_byte x -> squeeze (str ("0x" ++ hex2 x)) = str ("0x" ++ hex2 x).
Proof.
  intros H. apply (proj2 (list_ascii_eqb_eq _ _)). revert x H. apply for_byte. vm_compute. reflexivity.
Qed.

Lemma squeeze_bare b : Forall is_byte b -> b <> [] -> squeeze (bare_line b) = tight b.
Proof.
  intros F N. unfold bare_line, ljust, code_blob. rewrite !squeeze_app, squeeze_repeat.
  change (squeeze (str "     ")) with (@nil ascii). change (squeeze (str " ")) with (@nil ascii).
  cbn [app]. rewrite !app_nil_r.
  induction F as [|x b X F IH]; [congruence|].
  destruct b as [|y b].
  - cbn [map join_text]. rewrite squeeze_hex by auto. cbn [tight flat_map]. rewrite app_nil_r. reflexivity.
  - cbn [map] in *.
    change (join_text (str ", ") (str ("0x" ++ hex2 x) :: str ("0x" ++ hex2 y) :: map (fun x => str ("0x" ++ hex2 x)) b))
      with (str ("0x" ++ hex2 x) ++ str ", " ++ join_text (str ", ") (str ("0x" ++ hex2 y) :: map (fun x => str ("0x" ++ hex2 x)) b)).
    rewrite !squeeze_app, squeeze_hex by auto. rewrite <- !app_assoc.
    rewrite IH by congruence. cbn [tight flat_map]. rewrite <- app_assoc. reflexivity.
Qed.

Lemma bytes_nonempty i b : bytes i = Ok b -> b <> [].
Proof.
  intros H. assert (R : in_range (ic i) (ival i))
    by (eapply bytes_with_range; [|apply H]; intros; apply Z.log2_nonneg).
  rewrite (bytes_eq i R) in H. inversion H. congruence.
Qed.

Lemma code_run_contents l : forall n m lines b,
  code_run n l = Ok (m, lines) -> serialize l = Ok b ->
  Forall (fun i => no_nl (str (item_str i))) l ->
  forallb good_char (contents (concat lines)) = true /\ squeeze (contents (concat lines)) = tight b.
Proof.
  induction l as [|i l IH]; intros n m lines b H S N.
  - simpl in H, S. injection H as <- <-. injection S as <-. split; reflexivity.
  - cbn [code_run serialize] in H, S. unfold code_append in H.
    destruct (bytes i) as [bi|] eqn:B; [|discriminate]. cbn [bind] in H, S.
    destruct (code_run _ l) as [[m' lines']|] eqn:R in H; [|discriminate].
    destruct (serialize l) as [b'|]; [|discriminate]. cbn [bind] in H, S.
    injection H as <- <-. injection S as <-.
    inversion N as [|? ? N1 N2]; subst.
    destruct (IH _ _ _ _ R eq_refl N2) as [G Q].
    pose proof (bytes_bytes i bi B) as FB.
    cbn [concat]. rewrite contents_line by auto. split.
    + rewrite !forallb_app, bare_good, G by auto. reflexivity.
    + rewrite !squeeze_app, squeeze_bare, Q; auto; [|eapply bytes_nonempty; eauto].
      change (squeeze (str " ")) with (@nil ascii). unfold tight. rewrite flat_map_app. reflexivity.
Qed.

Lemma split_tight x r :
  is_byte x ->
  split_on is_comma (str ("0x" ++ hex2 x) ++ "," %char :: r)
  = str ("0x" ++ hex2 x) :: split_on is_comma r.
Proof.
  intros H.
  assert (E : forallb (fun c => negb (is_comma c)) (str ("0x" ++ hex2 x)) = true).
  { revert x H. apply for_byte. vm_compute. reflexivity. }
  revert E. generalize (str ("0x" ++ hex2 x)). clear.
  induction t as [|c t IH]; intros E; [reflexivity|].
  cbn [forallb] in E. apply andb_true_iff in E. destruct E as [E1 E2].
  cbn [app split_on]. apply negb_true_iff in E1. rewrite E1, IH by auto. reflexivity.
Qed.

Lemma int16_hex x : is_byte x -> int16 (str ("0x" ++ hex2 x)) = Some x.
Proof.
  intros H.
  assert (E : match int16 (str ("0x" ++ hex2 x)) with Some y => y =? x | None => false end = true).
  { revert x H. apply for_byte. vm_compute. reflexivity. }
  destruct (int16 _) as [y|]; [|discriminate]. f_equal. lia.
Qed.

Lemma code_bytes_cons t r z :
  t <> [] -> int16 t = Some z -> is_byte z ->
  code_bytes (t :: r) = let* u := code_bytes r in Ok (z :: u).
Proof.
  intros N E B. destruct t; [congruence|]. cbn [code_bytes]. rewrite E.
  unfold is_byte in B. replace ((0 <=? z) && (z <? 256)) with true by lia. reflexivity.
Qed.

Lemma tight_bytes b : Forall is_byte b -> code_bytes (split_on is_comma (tight b)) = Ok b.
Proof.
  intros F. induction F as [|x b X F IH]; [reflexivity|].
  cbn [tight flat_map]. rewrite <- app_assoc. change (str "," ++ ?r) with (","%char :: r).
  rewrite split_tight by auto.
  rewrite (code_bytes_cons _ _ x); [|discriminate|apply int16_hex; auto|exact X].
  unfold tight in IH. rewrite IH. reflexivity.
Qed.

Lemma serialize_bytes l b : serialize l = Ok b -> Forall is_byte b.
Proof.
  intros S. apply serialize_means in S. destruct S as [raws [S _]]. eapply short_items_bytes; eauto.
Qed.

Lemma code_run_total l : forall n b, serialize l = Ok b -> exists m lines, code_run n l = Ok (m, lines).
Proof.
  induction l as [|i l IH]; intros n b S; [simpl; eauto|].
  cbn [code_run serialize] in *. unfold code_append.
  destruct (bytes i) as [bi|]; [|discriminate]. cbn [bind] in *.
  destruct (serialize l) as [b'|]; [|discriminate].
  match goal with |- context [code_run ?k l] => destruct (IH k b' eq_refl) as [m [lines E]] end.
  rewrite E. cbn [bind]. eauto.
Qed.

Lemma c11 n l b :
  serialize l = Ok b -> Forall (fun i => no_nl (str (item_str i))) l ->
  exists m lines, code_run n l = Ok (m, lines) /\ code_blob_of (concat lines) = Ok b.
Proof.
  intros S N. destruct (code_run_total l n b S) as [m [lines R]]. exists m, lines. split; auto.
  destruct (code_run_contents l n m lines b R S N) as [G Q].
  unfold code_blob_of. fold (contents (concat lines)).
  rewrite drop_comments_ok by (apply good_not; [exact G|reflexivity]).
  fold (squeeze (contents (concat lines))). rewrite Q. apply tight_bytes.
  eapply serialize_bytes; eauto.
Qed.

Lemma c11_items db l b :
  Forall constructed l -> serialize l = Ok b -> Forall (fun i => no_nl (str (item_str i))) l ->
  exists t l', format_code l = Ok t /\ parse_code db t = Run l' (Ok tt)
             /\ Forall2 (fun i j => item_eqb i j = true) l' l.
Proof.
  intros C S N. destruct (c11 0 l b S N) as [m [lines [R E]]].
  destruct (c05 db l b C S) as [l' [P Q]].
  exists (concat lines), l'. unfold format_code, parse_code. rewrite R, E. cbn [bind]. auto.
Qed.

Definition icls_eq_dec (a b : icls) : {a = b} + {a <> b}.
Proof. decide equality. Defined.

(** C12: number of collections opened and not yet closed *)
Definition opens (l : list item) : nat :=
  count_occ icls_eq_dec (map ic l) Collection.
Definition closes (l : list item) : nat :=
  count_occ icls_eq_dec (map ic l) EndCollection.

(** collections enclosing the line of item [i] after the items [before] *)
Definition enclosing (before : list item) (i : item) : Z :=
  Z.of_nat (opens before) - Z.of_nat (closes before)
  - (if icls_eq_dec (ic i) EndCollection then 1 else 0).

Lemma icls_match {A} (c : icls) (a b : A) :
  match c with EndCollection => a | _ => b end = if icls_eq_dec c EndCollection then a else b.
Proof. destruct (icls_eq_dec c EndCollection) as [->|]; auto. destruct c; auto; congruence. Qed.
Lemma icls_match' {A} (c : icls) (a b : A) :
  match c with Collection => a | _ => b end = if icls_eq_dec c Collection then a else b.
Proof. destruct (icls_eq_dec c Collection) as [->|]; auto. destruct c; auto; congruence. Qed.

Lemma code_run_lines l : forall n m lines,
  code_run n l = Ok (m, lines) ->
  m = n + Z.of_nat (opens l) - Z.of_nat (closes l) /\
  length lines = length l /\
  forall k i, nth_error l k = Some i ->
    exists b, bytes i = Ok b /\
      nth_error lines k = Some (code_line b (n + enclosing (firstn k l) i) i).
Proof.
  induction l as [|i l IH]; intros n m lines H.
  - simpl in H. injection H as <- <-. split; [unfold opens, closes; simpl; lia|]. split; auto.
    intros k i K. destruct k; discriminate.
  - cbn [code_run] in H. unfold code_append in H.
    destruct (bytes i) as [bi|] eqn:B; [|discriminate]. cbn [bind] in H.
    destruct (code_run _ l) as [[m' lines']|] eqn:R in H; [|discriminate]. cbn [bind] in H.
    injection H as <- <-. rewrite icls_match, icls_match' in R.
    destruct (IH _ _ _ R) as [M [LL L]].
    assert (D : forall l', opens (i :: l') = ((if icls_eq_dec (ic i) Collection then 1 else 0) + opens l')%nat
            /\ closes (i :: l') = ((if icls_eq_dec (ic i) EndCollection then 1 else 0) + closes l')%nat).
    { intros l'. unfold opens, closes. cbn [map count_occ].
      destruct (icls_eq_dec (ic i) Collection), (icls_eq_dec (ic i) EndCollection); split; reflexivity. }
    destruct (D l) as [D1 D2]. split; [|split].
    + rewrite M, D1, D2.
      destruct (icls_eq_dec (ic i) Collection), (icls_eq_dec (ic i) EndCollection); try congruence; lia.
    + cbn [length]. lia.
    + intros k j K. destruct k as [|k]; cbn [nth_error] in *.
      * injection K as <-. exists bi. split; auto. rewrite icls_match. do 2 f_equal.
        unfold enclosing. cbn [firstn]. unfold opens, closes. cbn [map count_occ].
        destruct (icls_eq_dec (ic i) EndCollection); lia.
      * destruct (L k j K) as [b [Bj E]]. exists b. split; auto. rewrite E. do 2 f_equal.
        cbn [firstn]. destruct (D (firstn k l)) as [D3 D4].
        unfold enclosing. rewrite D3, D4.
        destruct (icls_eq_dec (ic i) Collection), (icls_eq_dec (ic i) EndCollection); try congruence; lia.
Qed.

Lemma c12 l t :
  format_code l = Ok t ->
  exists lines, t = concat lines /\ length lines = length l /\
    forall k i, nth_error l k = Some i ->
      exists p, ~ In slash p /\
        nth_error lines k = Some (p ++ str "// "
          ++ repeat " "%char (Z.to_nat (4 * enclosing (firstn k l) i)) ++ str (item_str i) ++ [nl]).
Proof.
  unfold format_code. destruct (code_run 0 l) as [[m lines]|] eqn:R; [|discriminate].
  cbn [bind]. intros H. injection H as <-. exists lines.
  destruct (code_run_lines _ _ _ _ R) as [_ [LL L]]. split; [auto|]. split; [auto|].
  intros k i K. destruct (L k i K) as [b [B E]]. exists (bare_line b). split.
  - apply good_not; [apply bare_good; eapply bytes_bytes; eauto|reflexivity].
  - etransitivity; [exact E|]. f_equal. unfold code_line, bare_line. rewrite <- !app_assoc. do 2 f_equal.
    change (str " // ") with (str " " ++ str "// "). rewrite <- app_assoc. do 3 f_equal.
    f_equal. f_equal. lia.
Qed.

Lemma c12_warns l w : code_warns l = Ok w -> (w = true <-> opens l <> closes l).
Proof.
  unfold code_warns. destruct (code_run 0 l) as [[m lines]|] eqn:R; [|discriminate].
  cbn [bind]. intros H. injection H as <-.
  destruct (code_run_lines _ _ _ _ R) as [M _]. lia.
Qed.

(** C13 *)
Lemma bytes_eqb_eq a b : bytes_eqb a b = true <-> a = b.
Proof.
  revert b. induction a as [|x a IH]; intros [|y b]; simpl; split; intros H; try discriminate; auto.
  - apply andb_true_iff in H. destruct H as [H1 H2]. apply IH in H2. f_equal; auto. lia.
  - injection H as -> ->. rewrite Z.eqb_refl. apply IH. reflexivity.
Qed.

Lemma skipn_skipn {A} n m (l : list A) : skipn n (skipn m l) = skipn (n + m) l.
Proof.
  revert l. induction m as [|m IH]; intros l; [rewrite Nat.add_0_r; reflexivity|].
  rewrite <- Nat.add_succ_comm. destruct l as [|x l]; [rewrite !skipn_nil; reflexivity|].
  cbn [plus skipn]. apply IH.
Qed.

Lemma exp_run_spec e l : forall p q,
  (p <= length e)%nat ->
  (exp_run e p l = Ok q <->
   exists b, serialize l = Ok b /\ q = (p + length b)%nat /\ firstn (length b) (skipn p e) = b).
Proof.
  induction l as [|i l IH]; intros p q Hp.
  - simpl. split.
    + intros H. injection H as <-. exists []. repeat split; auto.
    + intros [b [H [-> _]]]. injection H as <-. f_equal. simpl. lia.
  - cbn [exp_run serialize]. unfold exp_append.
    destruct (bytes i) as [bi|] eqn:B; cbn [bind].
    2:{ split; [discriminate|]. intros [b [H _]]. discriminate. }
    destruct (bytes_eqb (firstn (length bi) (skipn p e)) bi) eqn:E; cbn [bind].
    + apply bytes_eqb_eq in E.
      assert (L : (p + length bi <= length e)%nat).
      { pose proof (f_equal (@length Z) E) as L. rewrite firstn_length, skipn_length in L. lia. }
      rewrite IH by auto. split.
      * intros [b [S [-> F]]]. rewrite S. exists (bi ++ b). split; [reflexivity|].
        rewrite app_length. split; [lia|].
        rewrite <- (firstn_skipn (length bi) (skipn p e)) at 1. rewrite E.
        rewrite firstn_app_2. f_equal. rewrite skipn_skipn.
        replace (length bi + p)%nat with (p + length bi)%nat by lia. exact F.
      * intros [b [S [-> F]]]. destruct (serialize l) as [b'|]; [|discriminate]. cbn [bind] in S.
        injection S as <-. exists b'. split; auto. rewrite app_length in *. split; [lia|].
        rewrite <- (firstn_skipn (length bi) (skipn p e)) in F. rewrite E in F.
        rewrite firstn_app_2 in F. apply app_inv_head in F. rewrite skipn_skipn in F.
        replace (length bi + p)%nat with (p + length bi)%nat in F by lia. exact F.
    + split; [discriminate|]. intros [b [S [-> F]]].
      destruct (serialize l) as [b'|]; [|discriminate]. cbn [bind] in S. injection S as <-.
      exfalso. assert (firstn (length bi) (skipn p e) = bi); [|apply bytes_eqb_eq in H; congruence].
      rewrite app_length in F.
      pose proof (f_equal (firstn (length bi)) F) as G. rewrite firstn_firstn in G.
      rewrite firstn_app, Nat.sub_diag, firstn_O, app_nil_r, firstn_all in G.
      rewrite Nat.min_l in G by lia. exact G.
Qed.

Lemma c13 t l :
  expect t l = Ok tt <->
  exists b, code_blob_of t = Ok b /\ serialize l = Ok b.
Proof.
  unfold expect. destruct (code_blob_of t) as [e|x]; cbn [bind].
  2:{ split; [discriminate|]. intros [b [H _]]. discriminate. }
  pose proof (fun q => exp_run_spec e l 0 q ltac:(lia)) as R. cbn [skipn] in R.
  destruct (exp_run e 0 l) as [q|x] eqn:E; cbn [bind].
  - destruct (proj1 (R q) eq_refl) as [b [S [-> F]]]. cbn [plus].
    destruct (Nat.eqb_spec (length b) (length e)) as [L|L].
    + rewrite L, firstn_all in F. subst b. split; eauto.
    + split; [discriminate|]. intros [b' [H1 H2]]. injection H1 as <-.
      rewrite S in H2. injection H2 as <-. congruence.
  - split; [discriminate|]. intros [b [H1 H2]]. injection H1 as <-. exfalso.
    assert (X : Err x = Ok (length e)); [|discriminate X].
    apply R. exists e. repeat split; auto. apply firstn_all.
Qed.
