(* Properties_C.v -- C71, C72: what the text parsers make of arbitrary text. *)
From Verif Require Import Py Usage Item Parser Spec TextFormats TextProofs CSpec CProofs.
Local Open Scope list_scope.
Local Open Scope Z_scope.

(** C71.  Full statement (false, see C71_refuted): for every initialiser, that
    is without [readable].  Missing: decimal constants of several digits, //
    inside a block comment, a comment directly after a block comment. *)
Theorem C71_partial : forall ps zs, c_list ps zs -> Forall is_byte zs -> readable ps -> code_blob_of (render ps) = Ok zs.
Proof. exact c71. Qed.
Print Assumptions C71_partial.

Definition init71 : list piece :=
  [LineComment (str " mouse, 0x99,"); Blank " "; Number (Hexa false (str "05")); BlockComment (str "*x*" ++ [nl] ++ str "/ 7"); Comma;
   Number (Hexa true (str "fE")); Blank nl; Comma; LineComment (str "/* "); Number (Decimal (str "7"))].

Example C71_case : c_list init71 [5; 254; 7] /\ Forall is_byte [5; 254; 7] /\ readable init71 /\
  render init71 = str "// mouse, 0x99," ++ [nl] ++ str " 0x05/**x*" ++ [nl] ++ str "/ 7*/,0XfE" ++ [nl] ++ str ",///* " ++ [nl] ++ str "7".
Proof.
  split; [|split; [repeat constructor; discriminate|split]].
  - apply (c_more [LineComment (str " mouse, 0x99,"); Blank " "] (Hexa false (str "05")) 5 [BlockComment (str "*x*" ++ [nl] ++ str "/ 7")]).
    + apply Forall_cons; [|apply Forall_cons; [left; reflexivity|apply Forall_nil]].
      intros I. vm_compute in I. repeat (destruct I as [I|I]; [discriminate I|]). destruct I.
    + split; [discriminate|reflexivity].
    + apply Forall_cons; [apply pair_by; reflexivity|apply Forall_nil].
    + apply (c_more [] (Hexa true (str "fE")) 254 [Blank nl]); [apply Forall_nil|split; [discriminate|reflexivity]|
        apply Forall_cons; [right; right; left; reflexivity|apply Forall_nil]|].
      apply (c_last [LineComment (str "/* ")] (Decimal (str "7")) 7 []); [|split; [exact I|reflexivity]|apply Forall_nil].
      apply Forall_cons; [|apply Forall_nil]. intros I. vm_compute in I. repeat (destruct I as [I|I]; [discriminate I|]). destruct I.
  - cbn [readable init71 readable_number]. repeat split; auto. apply pair_by. reflexivity.
  - reflexivity.
Qed.

(** Initialisers that are not read: the number 16; a comment with // in it;
    two comments in a row; a comment with // in it, then 0x05 and, on the next
    line, a comment and 0x07. *)
Definition bad71 : list (list piece) :=
  [[Number (Decimal (str "16"))];
   [BlockComment (str "//"); Number (Hexa false (str "05"))];
   [BlockComment (str "a"); BlockComment (str "b"); Number (Hexa false (str "05"))];
   [BlockComment (str "a"); LineComment (str "b"); Number (Hexa false (str "05"))];
   [BlockComment (str "//"); Number (Hexa false (str "05")); Comma; Blank nl;
    BlockComment (str "b"); Number (Hexa false (str "07"))]].

Lemma gaps_by bs : forallb (fun b => match b with
    | BlockComment [_] => true | BlockComment [c; _] => negb (Ascii.eqb c "*") | LineComment [c] => negb (Ascii.eqb c nl) | _ => false end) bs = true ->
  Forall gap bs.
Proof.
  intros H. apply Forall_forall. intros p I. rewrite forallb_forall in H. apply H in I.
  destruct p as [|b|b| |]; try discriminate; cbn [gap].
  - destruct b as [|c [|]]; try discriminate. intros [->|[]]. vm_compute in I. discriminate I.
  - destruct b as [|c [|d [|]]]; try discriminate; intros [x [y E]].
    + destruct x as [|? [|]]; discriminate E.
    + destruct x as [|? [|? [|]]]; try discriminate E. injection E as -> _ _. vm_compute in I. discriminate I.
Qed.

Theorem C71_refuted : Forall (fun ps => exists zs, c_bytes (render ps) zs /\ code_blob_of (render ps) <> Ok zs) bad71.
Proof.
  repeat apply Forall_cons; [..|apply Forall_nil].
  - exists [16]. split; [|vm_compute; discriminate]. eexists. split; [reflexivity|]. split.
    + apply (c_last [] (Decimal (str "16")) 16 []); [apply Forall_nil|split; [exact I|reflexivity]|apply Forall_nil].
    + repeat constructor; discriminate.
  - exists [5]. split; [|vm_compute; discriminate]. eexists. split; [reflexivity|]. split.
    + apply (c_last [BlockComment (str "//")] (Hexa false (str "05")) 5 []); [apply gaps_by; reflexivity|split; [discriminate|reflexivity]|apply Forall_nil].
    + repeat constructor; discriminate.
  - exists [5]. split; [|vm_compute; discriminate]. eexists. split; [reflexivity|]. split.
    + apply (c_last [BlockComment (str "a"); BlockComment (str "b")] (Hexa false (str "05")) 5 []); [apply gaps_by; reflexivity|split; [discriminate|reflexivity]|apply Forall_nil].
    + repeat constructor; discriminate.
  - exists [5]. split; [|vm_compute; discriminate]. eexists. split; [reflexivity|]. split.
    + apply (c_last [BlockComment (str "a"); LineComment (str "b")] (Hexa false (str "05")) 5 []); [apply gaps_by; reflexivity|split; [discriminate|reflexivity]|apply Forall_nil].
    + repeat constructor; discriminate.
  - exists [5; 7]. split; [|vm_compute; discriminate]. eexists. split; [reflexivity|]. split.
    + apply (c_more [BlockComment (str "//")] (Hexa false (str "05")) 5 []); [apply gaps_by; reflexivity|split; [discriminate|reflexivity]|apply Forall_nil|].
      apply (c_last [Blank nl; BlockComment (str "b")] (Hexa false (str "07")) 7 []); [|split; [discriminate|reflexivity]|apply Forall_nil].
      apply Forall_cons; [right; right; left; reflexivity|apply gaps_by; reflexivity].
    + repeat constructor; discriminate.
Qed.
Print Assumptions C71_refuted.

(** what becomes of them: 16 is read as 0x16, three are errors, and of the
    last one 0x05 is lost without an error *)
Example C71_outcomes : map (fun ps => code_blob_of (render ps)) bad71 = [Ok [0x16]; Err ValueError; Err ValueError; Err ValueError; Ok [7]].
Proof. vm_compute. reflexivity. Qed.

(** C72.  Full statement (false, see C72_refuted): a text that is not the text
    of some bytes is rejected, by both text parsers.  Proved for the code
    parser and texts without comments: every part between commas that is not
    blank gives exactly one byte, and only white space, commas and the
    characters of numbers are accepted.  Missing: that blanks separate numbers,
    that underscores and signs are rejected; everything for the hex parser,
    which rejects nothing and drops all words that are not bytes (C10_words). *)
Theorem C72_partial : forall t bs, ~ In "/"%char t -> code_blob_of t = Ok bs ->
  length bs = length (filter (existsb (fun c => negb (white c))) (parts t)) /\
  Forall (fun c => white c = true \/ c = ","%char \/ numeric c = true) t.
Proof. exact c72. Qed.
Print Assumptions C72_partial.

Example C72_case : exists t bs, ~ In "/"%char t /\ code_blob_of t = Ok bs /\ t = str " 0x05, 1," /\ bs = [5; 1].
Proof.
  exists (str " 0x05, 1,"), [5; 1]. split; [|vm_compute; auto].
  intros I. vm_compute in I. repeat (destruct I as [I|I]; [discriminate I|]). destruct I.
Qed.

(** "5 1" is no bytes in hex (two are wanted) and no list in C: hex gives none
    without an error, code gives 0x51. *)
Lemma gap_head p t : gap p -> exists c r, piece_text p ++ t = c :: r /\ (In c blanks \/ c = "/"%char).
Proof.
  destruct p as [c|b|b| |n]; cbn [gap piece_text]; intros G; try contradiction; eexists; eexists; (split; [reflexivity|]); auto.
Qed.

Theorem C72_refuted : ~ (exists zs, tokens (str "5 1") zs) /\ (forall db, parse_hex db (str "5 1") = Run [] (Ok tt)) /\
  ~ (exists zs, c_bytes (str "5 1") zs) /\ code_blob_of (str "5 1") = Ok [0x51].
Proof.
  split; [|split; [|split]].
  - intros [zs T]. pose proof (tokens_ok _ _ T) as E. vm_compute in E. subst zs. inversion T; subst; discriminate.
  - intros db. reflexivity.
  - intros [zs [ps [E [C _]]]]. destruct C as [ps G|ps n z qs G D Q|ps n z qs rs zs G D Q _].
    + destruct ps as [|p ps]; [discriminate E|]. inversion G as [|? ? Gp _]; subst. destruct (gap_head p (render ps) Gp) as [c [r [R H]]].
      cbn in E. change (str "5 1" = piece_text p ++ render ps) in E. rewrite R in E. injection E as <- _. vm_compute in H. intuition discriminate.
    + unfold render in E. rewrite flat_map_app in E. destruct ps as [|p ps].
      * cbn [flat_map app piece_text] in E. destruct (numeral_alnum n z D) as [A NE].
        destruct (numeral_text n) as [|c [|d r]]; [congruence| |].
        -- injection E as _ E. destruct qs as [|q qs]; [discriminate E|]. inversion Q as [|? ? Gq Qr]; subst.
           destruct q as [c'|b|b| |m]; try contradiction; try discriminate E. cbn [flat_map piece_text app] in E. injection E as _ E.
           destruct qs as [|q qs]; [discriminate E|]. inversion Qr as [|? ? Gq' _]; subst.
           destruct (gap_head q (flat_map piece_text qs) Gq') as [c2 [r2 [R H]]]. cbn [flat_map] in E. rewrite R in E. injection E as <- _. vm_compute in H. intuition discriminate.
        -- injection E as _ <- _. cbn [forallb] in A. rewrite andb_false_r in A. discriminate A.
      * inversion G as [|? ? Gp _]; subst. cbn [flat_map] in E. rewrite <- app_assoc in E.
        match type of E with _ = _ ++ ?t => destruct (gap_head p t Gp) as [c [r [R H]]] end. rewrite R in E. injection E as <- _. vm_compute in H. intuition discriminate.
    + assert (I : In ","%char (str "5 1")).
      { rewrite E. unfold render. rewrite flat_map_app. cbn [flat_map]. rewrite flat_map_app. cbn [flat_map piece_text].
        apply in_or_app. right. apply in_or_app. right. apply in_or_app. right. left. reflexivity. }
      vm_compute in I. repeat (destruct I as [I|I]; [discriminate I|]). destruct I.
  - reflexivity.
Qed.
Print Assumptions C72_refuted.
