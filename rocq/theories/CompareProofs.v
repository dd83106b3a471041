(* CompareProofs.v -- item equality and order, arithmetic of named constants *)
From Coq Require Import ZifyBool.
From Verif Require Import Py Usage Item Spec ItemFacts Compare.
Local Open Scope list_scope.
Local Open Scope Z_scope.

Lemma c67_equiv :
  (forall a, item_eqb a a = true) /\
  (forall a b, item_eqb a b = true -> item_eqb b a = true) /\
  (forall a b c, item_eqb a b = true -> item_eqb b c = true -> item_eqb a c = true).
Proof.
  repeat split.
  - intros a. apply item_eqb_spec. auto.
  - intros a b H. apply item_eqb_spec in H. apply item_eqb_spec. destruct H; auto.
  - intros a b c H1 H2. apply item_eqb_spec in H1, H2. apply item_eqb_spec.
    destruct H1, H2; split; congruence.
Qed.

Lemma end_value i : constructed i -> ic i = EndCollection -> iv i = VInt 0.
Proof.
  intros (db & v & H) C. rewrite C in H. cbn [mk_item] in H.
  destruct v as [v|]; [|discriminate]. destruct (py_int v =? 0); [|discriminate].
  cbn in H. injection H as <-. reflexivity.
Qed.

Lemma c67 db1 db2 c1 c2 v1 v2 a b x y :
  mk_item db1 c1 v1 = Ok a -> mk_item db2 c2 v2 = Ok b ->
  bytes a = Ok x -> bytes b = Ok y ->
  (item_eqb a b = true <-> x = y).
Proof.
  intros Ma Mb Bx By.
  assert (Ca : constructed a).
  { exists db1, v1. rewrite (mk_item_class _ _ _ _ Ma). exact Ma. }
  assert (Cb : constructed b).
  { exists db2, v2. rewrite (mk_item_class _ _ _ _ Mb). exact Mb. }
  split.
  - intros E. apply item_eqb_spec in E. destruct E as [Ec Ev].
    assert (Ra : in_range (ic a) (ival a)) by (eapply bytes_with_range; [|apply Bx]; intros; apply Z.log2_nonneg).
    assert (Rb : in_range (ic b) (ival b)) by (eapply bytes_with_range; [|apply By]; intros; apply Z.log2_nonneg).
    rewrite (bytes_eq a Ra) in Bx. rewrite (bytes_eq b Rb) in By.
    assert (W : payload_width a = payload_width b).
    { assert (E : empty_payload a = empty_payload b).
      { unfold empty_payload. rewrite <- Ec, <- Ev.
        destruct (constructed_facts a Ca) as (_ & _ & Ia & _).
        destruct (constructed_facts b Cb) as (_ & _ & Ib & _).
        rewrite <- Ec in Ib.
        destruct (ic a) eqn:C; try reflexivity.
        - now rewrite Ia, Ib.
        - rewrite (end_value a Ca C), (end_value b Cb (eq_sym Ec)). reflexivity. }
      unfold payload_width. now rewrite E, <- Ec, <- Ev. }
    congruence.
  - intros <-. pose proof (parse_bytes empty_db a x Bx) as Pa.
    pose proof (parse_bytes empty_db b x By) as Pb.
    destruct (reparse_ok empty_db a Ca) as (j & Ja & Jc & Jv & _).
    destruct (reparse_ok empty_db b Cb) as (k & Ka & Kc & Kv & _).
    apply item_eqb_spec. split; congruence.
Qed.

(** ** Order *)

Lemma c68_always :
  (forall a, item_ltb a a = false) /\
  (forall a b, item_ltb a b = true \/ item_ltb b a = true \/ item_eqb a b = true).
Proof.
  split; intros; unfold item_ltb, item_eqb; lia.
Qed.

Lemma c68 :
  (forall a b, ic a = ic b -> item_ltb a b = true -> item_ltb b a = false) /\
  (forall a b c, ic a = ic b -> ic b = ic c ->
     item_ltb a b = true -> item_ltb b c = true -> item_ltb a c = true).
Proof.
  split; intros; unfold item_ltb, ikd in *; repeat match goal with H : ic _ = ic _ |- _ => rewrite H in *; clear H end; lia.
Qed.

(** ** Named constants *)

(* the operators on integers, in terms of arithmetic and of single bits *)
Definition arith (o : binop) (x y z : Z) : Prop :=
  match o with
  | OAdd => z = x + y
  | OSub => z = x - y
  | OMul => z = x * y
  | OAnd => forall n, 0 <= n -> Z.testbit z n = Z.testbit x n && Z.testbit y n
  | OOr => forall n, 0 <= n -> Z.testbit z n = Z.testbit x n || Z.testbit y n
  | OShl => 0 <= y /\ z = x * 2 ^ y
  | OShr => 0 <= y /\ z = x / 2 ^ y
  end.

(* the same expression with every constant replaced by its number is z *)
Fixpoint plainly (e : cexpr) (z : Z) : Prop :=
  match e with
  | CLit v => z = py_int v
  | CBin o e1 e2 => exists x y, plainly e1 x /\ plainly e2 y /\ arith o x y z
  | CInv e => exists x, plainly e x /\ x + z = -1
  end.

Lemma arith_fun o x y z z' : arith o x y z -> arith o x y z' -> z = z'.
Proof.
  destruct o; cbn [arith]; intros A B; try (destruct A, B); try congruence;
    apply Z.bits_inj'; intros n N; rewrite A, B by exact N; reflexivity.
Qed.

Lemma plainly_fun e : forall z z', plainly e z -> plainly e z' -> z = z'.
Proof.
  induction e as [w|o e1 IH1 e2 IH2|e IH]; intros z z'; cbn [plainly].
  - congruence.
  - intros (x & y & A & B & C) (x' & y' & A' & B' & C'). rewrite (IH1 _ _ A' A), (IH2 _ _ B' B) in C'. eapply arith_fun; eauto.
  - intros (x & A & B) (x' & A' & B'). rewrite (IH _ _ A' A) in B'. lia.
Qed.

Lemma int_op_arith o x y z : int_op o x y = Ok z -> arith o x y z.
Proof.
  destruct o; cbn [int_op arith]; try (intros [= <-]; reflexivity).
  - intros [= <-] n N. apply Z.land_spec.
  - intros [= <-] n N. apply Z.lor_spec.
  - destruct (y <? 0) eqn:E; [discriminate|]. intros [= <-]. split; [lia|]. apply Z.shiftl_mul_pow2. lia.
  - destruct (y <? 0) eqn:E; [discriminate|]. intros [= <-]. split; [lia|]. apply Z.shiftr_div_pow2. lia.
Qed.

Lemma int_op_comm o x y : has_reflected o = true -> int_op o x y = int_op o y x.
Proof.
  destruct o; try discriminate; intros _; cbn [int_op].
  - now rewrite Z.land_comm.
  - now rewrite Z.lor_comm.
Qed.

Lemma py_binop_sound o a b v : py_binop o a b = Ok v ->
  int_op o (py_int a) (py_int b) = Ok (py_int v).
Proof.
  assert (G1 : forall r, (let* q := r in Ok (VInt q)) = Ok v -> r = Ok (py_int v)).
  { intros r H. destruct r; cbn [bind] in H; [|discriminate]. injection H as <-. reflexivity. }
  unfold py_binop. intros H. apply G1 in H. clear G1.
  destruct (has_method o) eqn:HM, (has_reflected o) eqn:HR, a as [x|n x|n x k], b as [y|m y|m y l]; cbn [py_int] in *;
    try discriminate H; try exact H; rewrite int_op_comm by exact HR; exact H.
Qed.

Lemma ceval_plainly e : forall v, ceval e = Ok v -> plainly e (py_int v).
Proof.
  induction e as [w|o e1 IH1 e2 IH2|e IH]; intros v; cbn [ceval plainly].
  - intros [= <-]. reflexivity.
  - destruct (ceval e1) as [a|]; [|discriminate]. cbn [bind].
    destruct (ceval e2) as [b|]; [|discriminate]. cbn [bind].
    intros H. exists (py_int a), (py_int b). split; [auto|]. split; [auto|].
    apply int_op_arith. now apply py_binop_sound.
  - destruct (ceval e) as [a|]; [|discriminate]. cbn [bind]. intros [= <-].
    exists (py_int a). split; [auto|]. cbn [py_invert py_int]. rewrite Z.add_lnot_diag. reflexivity.
Qed.

Lemma ceval_sound e v : ceval e = Ok v -> forall z, plainly e z <-> z = py_int v.
Proof.
  intros H z. apply ceval_plainly in H. split; [|intros ->; exact H]. intros P. eapply plainly_fun; eauto.
Qed.

(* expressions of flags: |, & and ~ *)
Fixpoint flag_expr (e : cexpr) : Prop :=
  match e with
  | CLit _ => True
  | CBin o e1 e2 => (o = OAnd \/ o = OOr) /\ flag_expr e1 /\ flag_expr e2
  | CInv e => flag_expr e
  end.

Lemma flag_ok e : flag_expr e -> exists v, ceval e = Ok v.
Proof.
  induction e as [w|o e1 IH1 e2 IH2|e IH]; cbn [flag_expr ceval].
  - eauto.
  - intros (O & F1 & F2). destruct (IH1 F1) as [a ->], (IH2 F2) as [b ->].
    cbn [bind]. unfold py_binop.
    destruct O as [-> | ->], a, b; cbn; eauto.
  - intros F. destruct (IH F) as [a ->]. cbn. eauto.
Qed.

Lemma c69_compare :
  (forall a b r, py_lt a b = Ok r -> r = (py_int a <? py_int b)) /\
  (forall a b r, py_gt a b = Ok r -> r = (py_int b <? py_int a)) /\
  (forall a b, py_eq a b = (py_int a =? py_int b)).
Proof.
  repeat split; intros a b; destruct a, b; cbn; try congruence; try reflexivity;
    try (intros r [= <-]; reflexivity); try lia.
Qed.

(* exactly when a binary operation raises TypeError *)
Lemma c69_type o a b : py_binop o a b = Err TypeError <->
  is_named a = false /\ is_named b = true /\ o <> OAnd /\ o <> OOr \/
  is_named a = true /\ o = OSub.
Proof.
  unfold py_binop. split.
  - destruct o, a as [x|n x|n x k], b as [y|m y|m y l]; cbn;
      repeat match goal with |- context [if ?c then _ else _] => destruct c end; cbn; intros H; try discriminate H;
      try (left; repeat split; discriminate); right; auto.
  - intros [(A & B & O1 & O2)|(A & ->)].
    + destruct a, b; try discriminate; destruct o; try contradiction; reflexivity.
    + destruct a; try discriminate; destruct b; reflexivity.
Qed.

