(* Properties_Flags.v -- C87: what the flags, the types of collections and the
   ways that scripts name stand for on the wire. *)
From Coq Require Import ZifyBool.
From Verif Require Import Py Usage Item Compare HidSpec PyExpr FlagSpec.
Local Open Scope string_scope.
Local Open Scope list_scope.
Local Open Scope Z_scope.

(** An expression of flags: words joined by |, in any grouping. *)
Inductive joined : cexpr -> list string -> Prop :=
| joined_word n v : flag_word n -> attribute (OClass "Value") n = Some (OVal v) -> joined (CLit v) [n]
| joined_or e f ns ms : joined e ns -> joined f ms -> joined (CBin OOr e f) (ns ++ ms).

(** Bit by bit, what the words demand. *)
Definition demanded (z : Z) (ns : list string) : Prop :=
  0 <= z < 2 ^ Z.of_nat (List.length words) /\
  forall k zero one, nth_error words k = Some (zero, one) -> Z.testbit z (Z.of_nat k) = existsb (String.eqb one) ns.

Lemma c87_words n : flag_word n ->
  exists z, attribute (OClass "Value") n = Some (OVal (VNamed n z)) /\ demanded z [n].
Proof.
  intros [zero [one [I E]]]. unfold words in I. cbn [In] in I.
  repeat (destruct I as [I|I]; [injection I as <- <-; destruct E as [-> | ->];
    (eexists; split; [reflexivity|]; split; [vm_compute; split; [discriminate|reflexivity]|];
     intros k zero one K; do 9 (destruct k as [|k]; [injection K as <- <-; reflexivity|]); destruct k; discriminate)|]).
  destruct I.
Qed.

Lemma demanded_lor x y ns ms : demanded x ns -> demanded y ms -> demanded (Z.lor x y) (ns ++ ms).
Proof.
  intros [[X0 X] DX] [[Y0 Y] DY]. split.
  - assert (N : 0 <= Z.lor x y) by (apply Z.lor_nonneg; auto). split; [exact N|].
    destruct (Z.eq_dec (Z.lor x y) 0) as [->|NZ]; [reflexivity|].
    apply Z.log2_lt_pow2; [lia|]. rewrite Z.log2_lor by assumption.
    change (Z.of_nat (List.length words)) with 9 in *.
    apply Z.max_lub_lt.
    + destruct (Z.eq_dec x 0) as [->|]; [reflexivity|]. apply Z.log2_lt_pow2; [lia|exact X].
    + destruct (Z.eq_dec y 0) as [->|]; [reflexivity|]. apply Z.log2_lt_pow2; [lia|exact Y].
  - intros k zero one K. rewrite Z.lor_spec, existsb_app, (DX _ _ _ K), (DY _ _ _ K). reflexivity.
Qed.

Lemma c87_flags e ns : joined e ns -> exists v, ceval e = Ok v /\ demanded (py_int v) ns.
Proof.
  induction 1 as [n v W A|e f ns ms _ [x [X DX]] _ [y [Y DY]]].
  - destruct (c87_words n W) as [z [A' D]]. rewrite A' in A. injection A as <-.
    eexists. split; [reflexivity|exact D].
  - cbn [ceval]. rewrite X, Y. cbn [bind].
    exists (VInt (Z.lor (py_int x) (py_int y))). split; [|apply demanded_lor; assumption].
    destruct x, y; cbn [py_binop has_reflected has_method int_op bind py_int]; try reflexivity;
      rewrite Z.lor_comm; reflexivity.
Qed.

(** Whatever words a script joins, and however it groups them, bit k of the
    flags is set just when the word for 1 is among them, and no other bit is. *)
Theorem C87_flags : forall e ns, joined e ns ->
  exists v, ceval e = Ok v /\ 0 <= py_int v < 512 /\
  forall k zero one, nth_error words k = Some (zero, one) ->
  Z.testbit (py_int v) (Z.of_nat k) = existsb (String.eqb one) ns.
Proof. intros e ns J. destruct (c87_flags e ns J) as [v [E [B D]]]. exists v. split; [exact E|]. split; [exact B|exact D]. Qed.
Print Assumptions C87_flags.

(** Every word is there to be used. *)
Theorem C87_words : forall n, flag_word n -> exists v, attribute (OClass "Value") n = Some (OVal v) /\ joined (CLit v) [n].
Proof. intros n W. destruct (c87_words n W) as [z [A _]]. eexists. split; [exact A|]. apply (joined_word _ _ W A). Qed.
Print Assumptions C87_words.

(** The reading of the specification depends on the flags in the same way. *)
Theorem C87_meaning : forall e ns v, joined e ns -> ceval e = Ok v ->
  is_constant (py_int v) = existsb (String.eqb "Constant") ns /\
  is_variable (py_int v) = existsb (String.eqb "Variable") ns.
Proof.
  intros e ns v J E. destruct (c87_flags e ns J) as [w [E' [_ D]]]. rewrite E in E'. injection E' as <-.
  rewrite <- (D 0%nat _ _ eq_refl), <- (D 1%nat _ _ eq_refl). unfold is_constant, is_variable.
  split; [symmetry; apply Z.bit0_odd|]. change (Z.of_nat 1) with 1.
  rewrite <- Z.bit0_odd, Z.div2_bits by lia. reflexivity.
Qed.
Print Assumptions C87_meaning.

(** The types of collections are numbered as in 6.2.2.6, and there are no
    others. *)
Theorem C87_collections : forall n v,
  attribute (OClass "Collection") n = Some (OVal v) <->
  exists k, nth_error collection_types k = Some n /\ v = VNamed n (Z.of_nat k).
Proof.
  intros n v. split.
  - intros A. cbn [attribute String.eqb Ascii.eqb Bool.eqb] in A. unfold constant in A.
    destruct (find _ _) as [[m z]|] eqn:F; [|discriminate]. injection A as <-.
    apply find_some in F. destruct F as [I Q]. apply String.eqb_eq in Q. cbn [fst] in Q. subst m.
    unfold collection_constants in I. cbn [In] in I.
    destruct I as [I|[I|[I|[I|[I|[I|[I|[]]]]]]]]; injection I as <- <-;
      [exists 0%nat|exists 1%nat|exists 2%nat|exists 3%nat|exists 4%nat|exists 5%nat|exists 6%nat]; split; reflexivity.
  - intros [k [K ->]]. do 7 (destruct k as [|k]; [injection K as <-; reflexivity|]). destruct k; discriminate.
Qed.
Print Assumptions C87_collections.

(** A way is the tag of the main item of that name (6.2.2.4). *)
Theorem C87_ways : forall n, In n data_items ->
  exists z, attribute (OClass "Value") n = Some (OVal (VNamed n z)) /\
  hid_class 0 z = match n with "Input" => Some Input | "Output" => Some Output | _ => Some Feature end.
Proof. intros n [<-|[<-|[<-|[]]]]; eexists; split; reflexivity. Qed.
Print Assumptions C87_ways.

(** The units that C14 and C86 speak of are those that scripts get. *)
Theorem C87_units : forall name printed code, In (name, printed, code) usual_units ->
  attribute (OClass "Unit") name = Some (OVal (VNamed printed code)).
Proof.
  intros name printed code I. unfold usual_units in I. cbn [In] in I.
  repeat (destruct I as [E|I]; [injection E as <- <- <-; vm_compute; reflexivity|]). destruct I.
Qed.
Print Assumptions C87_units.

(** (Data | Variable) | (NullState | Relative | Variable), 70 *)
Example C87_case :
  exists e, joined e ["Data"; "Variable"; "NullState"; "Relative"; "Variable"] /\ ceval e = Ok (VInt 70) /\
  is_variable 70 = true /\ is_constant 70 = false.
Proof.
  exists (CBin OOr (CBin OOr (CLit (VNamed "Data" 0)) (CLit (VNamed "Variable" 2)))
            (CBin OOr (CBin OOr (CLit (VNamed "NullState" 64)) (CLit (VNamed "Relative" 4))) (CLit (VNamed "Variable" 2)))).
  split; [|repeat split; reflexivity].
  assert (W : forall n z, flag_word n -> attribute (OClass "Value") n = Some (OVal (VNamed n z)) -> joined (CLit (VNamed n z)) [n])
    by (intros; apply joined_word; assumption).
  apply (joined_or _ _ ["Data"; "Variable"] ["NullState"; "Relative"; "Variable"]).
  - apply (joined_or _ _ ["Data"] ["Variable"]); apply W; try reflexivity.
    + exists "Data", "Constant". split; [cbn; tauto|left; reflexivity].
    + exists "Array", "Variable". split; [cbn; tauto|right; reflexivity].
  - apply (joined_or _ _ ["NullState"; "Relative"] ["Variable"]);
      [apply (joined_or _ _ ["NullState"] ["Relative"]); apply W; try reflexivity|apply W; try reflexivity].
    + exists "NoNullPosition", "NullState". split; [cbn; tauto|right; reflexivity].
    + exists "Absolute", "Relative". split; [cbn; tauto|right; reflexivity].
    + exists "Array", "Variable". split; [cbn; tauto|right; reflexivity].
Qed.

Example C87_collections_case : attribute (OClass "Collection") "NamedArray" = Some (OVal (VNamed "NamedArray" 4)).
Proof. reflexivity. Qed.
