(* CommentTable.v -- the comments of usages in the shipped registry (C73) *)
From Coq Require Import ZArith List Bool String Ascii Lia ZifyBool.
From Verif Require Import Py Usage Item UsageTable UsageModules TextFormats PyExpr HidSpec Spec DumpFacts CommentSpec CommentProofs.
Import ListNotations.
Local Open Scope list_scope.
Local Open Scope Z_scope.
Ltac Zify.zify_post_hook ::= Z.div_mod_to_equations.

Definition every_decl : list udecl := concat (map snd modules).

Lemma register_from l : forall db z n ks, register_decls db l z = Some (n, ks) ->
  db z = Some (n, ks) \/ exists d, In d l /\ u_value d = z /\ u_name d = n.
Proof.
  unfold register_decls. induction l as [|d l IH]; intros db z n ks H; [left; exact H|].
  cbn [fold_left] in H. destruct (IH _ _ _ _ H) as [R|[e [I [E1 E2]]]]; [|right; exists e; auto using in_cons].
  unfold register in R. destruct (z =? u_value d) eqn:Q; [|left; exact R].
  right. exists d. injection R as R _. repeat split; [left; reflexivity|lia|exact R].
Qed.

Lemma modules_from l : forall db z n ks, fold_left (fun d m => register_decls d (snd m)) l db z = Some (n, ks) ->
  db z = Some (n, ks) \/ exists d, In d (concat (map (@snd string (list udecl)) l)) /\ u_value d = z /\ u_name d = n.
Proof.
  induction l as [|m l IH]; intros db z n ks H; [left; exact H|]. cbn [fold_left] in H. cbn [map concat].
  destruct (IH _ _ _ _ H) as [R|[e [I E]]]; [|right; exists e; split; [apply in_or_app; right; exact I|exact E]].
  destruct (register_from _ _ _ _ _ R) as [Q|[e [I E]]]; [left; exact Q|right; exists e; split; [apply in_or_app; left; exact I|exact E]].
Qed.

Lemma default_from z n ks : default_db z = Some (n, ks) -> exists d, In d every_decl /\ u_value d = z /\ u_name d = n.
Proof.
  intros H. unfold default_db in H. destruct (modules_from _ _ _ _ _ H) as [R|R]; [discriminate R|exact R].
Qed.

(** what the check of the table establishes *)
Definition short_of (d : udecl) : string := match after_dot (u_name d) with Some s => s | None => EmptyString end.
Definition dotted (s : string) : bool := match after_dot s with Some _ => true | None => false end.
Definition row (d : udecl) : string * string * Z := (u_name d, short_of d, u_value d).
Definition row_ok (r : string * string * Z) : bool :=
  let '(n, s, z) := r in head_letter n && head_letter s && dotted n && negb (dotted s).
Definition apart (r q : string * string * Z) : bool :=
  let '(n, s, z) := r in let '(m, t, y) := q in
  if String.eqb s t then
    if z =? y then true else negb (z / 65536 =? y / 65536) && negb (String.eqb n m)
  else true.

Definition checked (l : list udecl) : bool :=
  let rows := map row l in forallb row_ok rows && forallb (fun r => forallb (apart r) rows) rows.
Lemma table_fine : checked every_decl = true.
Proof. vm_compute. reflexivity. Qed.

Lemma checked_fine l : checked l = true -> (forall d, In d l -> row_ok (row d) = true) /\
  (forall d e, In d l -> In e l -> apart (row d) (row e) = true).
Proof.
  intros T. unfold checked in T. cbv zeta in T. apply andb_true_iff in T. destruct T as [T1 T2].
  rewrite forallb_forall in T1, T2. split.
  - intros d I. apply T1. apply in_map. exact I.
  - intros d e I J. specialize (T2 (row d) (in_map row _ _ I)). rewrite forallb_forall in T2. apply T2. apply in_map. exact J.
Qed.

#[local] Opaque every_decl default_db.

Lemma row_fine d : In d every_decl -> row_ok (row d) = true.
Proof. apply (checked_fine every_decl table_fine). Qed.
Lemma rows_fine d e : In d every_decl -> In e every_decl -> apart (row d) (row e) = true.
Proof. apply (checked_fine every_decl table_fine). Qed.

Lemma hex_head z : 0 <= z -> head_letter (hex_of_Z z) = false.
Proof. intros H. unfold hex_of_Z. destruct (z <? 0) eqn:E; [lia|reflexivity]. Qed.

Lemma hex_expression z : 0 <= z -> expression (str (hex_of_Z z)) = Some (ENum z).
Proof. apply hex_of_word. Qed.
Lemma dec_expression z : 0 <= z -> expression (str (dec_of_Z z)) = Some (ENum z).
Proof. intros H. destruct (word_dec z H) as [W D]. apply expression_word; [apply digits_word; exact D|exact W]. Qed.

Definition shown (p v : Z) (s : string) : Prop :=
  (65536 <= v /\ exists d, In d every_decl /\ u_value d = v /\ s = u_name d) \/
  (65536 <= v /\ s = hex_of_Z v) \/
  (v < 65536 /\ exists d, In d every_decl /\ u_value d = 65536 * p + v /\ s = short_of d) \/
  (v < 65536 /\ s = dec_of_Z v).

Lemma usage_shown p v : 0 <= v -> shown p v (usage_named default_db p v).
Proof.
  intros V. unfold usage_named, shown. change (2 ^ 16) with 65536.
  destruct (65536 <=? v) eqn:L.
  - destruct (default_db v) as [[n ks]|] eqn:D; [left|right; left; split; [lia|reflexivity]].
    destruct (default_from _ _ _ D) as [d [I [E N]]]. split; [lia|]. exists d. auto.
  - right. right. assert (X : v < 65536) by lia. destruct (p =? 0); [right; auto|].
    destruct (default_db (65536 * p + v)) as [[n ks]|] eqn:D; [|right; auto].
    destruct (default_from _ _ _ D) as [d [I [E <-]]].
    destruct (after_dot (u_name d)) as [s|] eqn:S; [left|right; auto].
    split; [exact X|]. exists d. split; [exact I|]. split; [exact E|]. unfold short_of. rewrite S. reflexivity.
Qed.

Lemma row_facts d : In d every_decl ->
  head_letter (u_name d) = true /\ head_letter (short_of d) = true /\ dotted (u_name d) = true /\ dotted (short_of d) = false.
Proof.
  intros I. pose proof (row_fine d I) as R. unfold row_ok, row in R.
  apply andb_true_iff in R. destruct R as [R R4]. apply andb_true_iff in R. destruct R as [R R3].
  apply andb_true_iff in R. destruct R as [R1 R2]. apply negb_true_iff in R4. auto.
Qed.

Lemma row_apart d e : In d every_decl -> In e every_decl -> short_of d = short_of e ->
  (u_value d / 65536 = u_value e / 65536 \/ u_name d = u_name e) -> u_value d = u_value e.
Proof.
  intros I J S Q. pose proof (rows_fine d e I J) as R. unfold apart, row in R. rewrite S, String.eqb_refl in R.
  destruct (u_value d =? u_value e) eqn:E; [lia|]. apply andb_true_iff in R. destruct R as [R1 R2].
  destruct Q as [Q|Q]; [lia|]. rewrite Q, String.eqb_refl in R2. discriminate.
Qed.

Lemma shown_inj p v1 v2 s : 0 <= p -> 0 <= v1 -> 0 <= v2 -> shown p v1 s -> shown p v2 s -> v1 = v2.
Proof.
  intros P V1 V2 A B.
  pose proof (dec_head v1) as H1. pose proof (dec_head v2) as H2. pose proof (hex_head v1 V1) as H3. pose proof (hex_head v2 V2) as H4.
  destruct A as [[L1 [d1 [I1 [E1 S1]]]]|[[L1 S1]|[[L1 [d1 [I1 [E1 S1]]]]|[L1 S1]]]];
  destruct B as [[L2 [d2 [I2 [E2 S2]]]]|[[L2 S2]|[[L2 [d2 [I2 [E2 S2]]]]|[L2 S2]]]];
    try (destruct (row_facts d1 I1) as [F1 [F2 [F3 F4]]]); try (destruct (row_facts d2 I2) as [G1 [G2 [G3 G4]]]);
    rewrite S1 in S2; clear S1; try congruence.
  - rewrite <- E1, <- E2. apply row_apart; auto. unfold short_of. rewrite S2. reflexivity.
  - pose proof (hex_expression v1 V1) as X1. pose proof (hex_expression v2 V2) as X2. congruence.
  - pose proof (hex_expression v1 V1) as X1. pose proof (dec_expression v2 V2) as X2. congruence.
  - assert (u_value d1 = u_value d2) by (apply row_apart; auto; left; lia). lia.
  - pose proof (dec_expression v1 V1) as X1. pose proof (hex_expression v2 V2) as X2. congruence.
  - apply dec_inj. congruence.
Qed.

Lemma c73_all_apart p w1 w2 :
  0 <= p -> nine_bits w1 -> nine_bits w2 -> in_32_bits (w_cls w1) (w_val w1) -> in_32_bits (w_cls w2) (w_val w2) ->
  comment default_db p w1 = comment default_db p w2 -> w_what w1 = w_what w2.
Proof.
  intros P N1 N2 R1 R2 H. destruct (is_any_usage (w_cls w1)) eqn:U; [|eapply c73_apart; eauto].
  destruct (is_any_usage (w_cls w2)) eqn:U2; [|symmetry; eapply c73_apart; eauto].
  destruct w1 as [c v e], w2 as [d u g]. unfold w_what. cbn [w_cls w_val] in *.
  assert (C : forall k z h, is_any_usage k = true -> comment default_db p (W k z h) = (hid_item_name k ++ String " " (String "(" (usage_named default_db p z ++ ")")))%string)
    by (intros k z h K; destruct k; try discriminate K; reflexivity).
  rewrite !C in H by assumption.
  pose proof (cut_name c (String "(" (usage_named default_db p v ++ ")"))) as C1. rewrite H, cut_name in C1.
  injection C1 as C1 C2. apply name_inj in C1. subst d. f_equal. apply paren_inj in C2.
  assert (V : 0 <= v /\ 0 <= u) by (destruct c; try discriminate U; unfold in_32_bits in *; cbn [hid_signed] in *; lia).
  destruct V as [V1 V2].
  apply (shown_inj p v u (usage_named default_db p v) P V1 V2); [apply usage_shown; exact V1|].
  rewrite <- C2. apply usage_shown. exact V2.
Qed.
