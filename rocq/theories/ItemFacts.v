(* ItemFacts.v -- lemmas about Item.v (encoding and decoding of items) *)
From Coq Require Import ZifyBool ZifyNat.
From Verif Require Import Py Usage Item HidSpec.
Ltac Zify.zify_post_hook ::= Z.div_mod_to_equations.

#[global] Arguments hex_of_Z : simpl never.
#[global] Arguments hex_digits : simpl never.
#[global] Arguments dec_of_Z : simpl never.
#[global] Arguments flags_name : simpl never.
#[global] Arguments usage_page : simpl never.
#[global] Arguments usual_unit : simpl never.
#[global] Arguments Z.shiftr : simpl never.
#[global] Arguments Z.shiftl : simpl never.
#[global] Arguments Z.land : simpl never.
#[global] Arguments Z.lor : simpl never.
#[global] Arguments Z.pow : simpl never.
#[global] Arguments lookup : simpl never.
#[global] Arguments split : simpl never.
#[global] Arguments inpage : simpl never.
#[global] Arguments Z.mul : simpl never.
#[global] Arguments Z.modulo : simpl never.
#[global] Arguments Z.div : simpl never.

Lemma icls_eqb_eq a b : icls_eqb a b = true <-> a = b.
Proof. split; [destruct a, b; simpl; congruence | intros ->; destruct b; reflexivity]. Qed.

Lemma icls_eqb_refl a : icls_eqb a a = true.
Proof. destruct a; reflexivity. Qed.

Lemma icls_eqb_neq a b : icls_eqb a b = false <-> a <> b.
Proof.
  destruct (icls_eqb a b) eqn:E.
  - apply icls_eqb_eq in E. split; congruence.
  - split; auto. intros _ H. apply icls_eqb_eq in H. congruence.
Qed.

Lemma tag_kind_inj a b :
  kind_int (kind_of a) = kind_int (kind_of b) -> tag_of a = tag_of b -> a = b.
Proof. destruct a, b; simpl; try congruence; try lia. Qed.

Lemma item_eqb_spec a b :
  item_eqb a b = true <-> ic a = ic b /\ ival a = ival b.
Proof.
  unfold item_eqb, ikd. rewrite !andb_true_iff, !Z.eqb_eq. split.
  - intros [[H1 H2] H3]. split; auto. apply tag_kind_inj; auto.
  - intros [H1 H2]. rewrite H1. auto.
Qed.

Lemma itemclass_tag c : itemclass (kind_int (kind_of c)) (tag_of c) = Some c.
Proof. destruct c; reflexivity. Qed.

Lemma itemclass_inv k t c :
  itemclass k t = Some c -> kind_int (kind_of c) = k /\ tag_of c = t.
Proof.
  unfold itemclass. intros H. apply find_some in H. destruct H as [_ H].
  lia.
Qed.

Lemma hid_class_tag c : hid_class (kind_int (kind_of c)) (tag_of c) = Some c.
Proof. destruct c; reflexivity. Qed.

Lemma hid_class_inv k t c :
  hid_class k t = Some c -> k = kind_int (kind_of c) /\ t = tag_of c.
Proof.
  unfold hid_class. intros H.
  repeat match type of H with
         | context [match ?x with _ => _ end] => is_var x; destruct x; try discriminate
         end; inversion H; subst; auto.
Qed.

Lemma itemclass_hid k t : itemclass k t = hid_class k t.
Proof.
  destruct (itemclass k t) as [c|] eqn:E.
  - apply itemclass_inv in E. destruct E as [<- <-]. symmetry. apply hid_class_tag.
  - destruct (hid_class k t) as [c|] eqn:E2; auto.
    apply hid_class_inv in E2. destruct E2 as [-> ->].
    rewrite itemclass_tag in E. discriminate.
Qed.

Lemma signed_hid c : signed c = hid_signed c.
Proof. destruct c; reflexivity. Qed.

(* ------------------------------------------------------------------ *)
(** constructors *)

Lemma item_init_ok c v i :
  item_init c v = Ok i ->
  ic i = c /\ ival i = (match v with Some x => py_int x | None => 0 end)
  /\ (signed c = true \/ 0 <= ival i).
Proof.
  unfold item_init, ival. destruct v as [x|].
  - destruct (truthy x) eqn:T.
    + destruct (signed c || (0 <=? py_int x)) eqn:E; intros H; inversion H; subst.
      simpl. repeat split; auto. destruct (signed c); auto. right. simpl in E. lia.
    + assert (X : py_int x = 0) by (destruct x; simpl in *; try discriminate; lia).
      simpl. rewrite orb_true_r. intros H. inversion H. subst. simpl. auto with zarith.
  - simpl. rewrite orb_true_r. intros H. inversion H. simpl. auto with zarith.
Qed.

Lemma item_init_some c x :
  signed c = true \/ 0 <= py_int x -> exists i, item_init c (Some x) = Ok i.
Proof.
  intros H. unfold item_init.
  assert (signed c || (0 <=? py_int (if truthy x then x else VInt 0)) = true) as ->; eauto.
  destruct H as [H|H]; [rewrite H; auto|].
  destruct (truthy x); simpl; destruct (signed c); simpl; lia.
Qed.

Lemma lookup_int db v : py_int (lookup db v) = py_int v.
Proof.
  unfold lookup. destruct v as [z|n z|n z k]; [|reflexivity|reflexivity].
  destruct (negb (Z.shiftr z 16 =? 0)); [|reflexivity].
  destruct (db z) as [[? ?]|]; reflexivity.
Qed.

Lemma lookup_usage db v : exists n z ks, lookup db v = VUsage n z ks.
Proof.
  unfold lookup. destruct v as [z|n z|n z k]; [|eauto|eauto].
  destruct (negb (Z.shiftr z 16 =? 0)); [|eauto].
  destruct (db z) as [[? ?]|]; eauto.
Qed.

Lemma usual_unit_int v : py_int (usual_unit v) = py_int v.
Proof.
  unfold usual_unit. destruct (find _ usual_units) as [[[a n] z]|] eqn:E; auto.
  apply find_some in E. destruct E as [_ E]. simpl in *. lia.
Qed.

Definition zero_only (c : icls) : bool :=
  match c with EndCollection | Push | Pop => true | _ => false end.

Lemma mk_item_class db c v i : mk_item db c v = Ok i -> ic i = c.
Proof.
  intros H. destruct c; simpl in H;
    repeat match type of H with
           | context [match ?x with _ => _ end] => destruct x eqn:?; simpl in H
           | bind _ _ = Ok _ => unfold bind in H
           end; try discriminate;
    try (apply item_init_ok in H; tauto).
  all: try (inversion H; reflexivity).
Qed.

Definition neg_collection (c : icls) (v : pval) : bool :=
  match c, v with Collection, VInt z => z <? 0 | _, _ => false end.

(* Collection(i) for an int: the name table *)
Lemma mk_collection_int db z :
  0 <= z ->
  exists i, mk_item db Collection (Some (VInt z)) = Ok i
            /\ ic i = Collection /\ ival i = z.
Proof.
  intros Hz. simpl.
  destruct (z <? 7) eqn:E.
  - assert (z = 0 \/ z = 1 \/ z = 2 \/ z = 3 \/ z = 4 \/ z = 5 \/ z = 6) as D by lia.
    repeat destruct D as [->|D]; try (subst; eexists; repeat split; reflexivity).
  - destruct (item_init_some Collection (VInt z)) as [i Hi]; auto.
    exists i. split; auto. apply item_init_ok in Hi. simpl in Hi. tauto.
Qed.

Lemma mk_item_int db c v i :
  neg_collection c v = false ->
  mk_item db c (Some v) = Ok i -> ival i = py_int v.
Proof.
  intros N H. unfold mk_item in H. cbn [lookup_opt bind] in H.
  assert (ZO : (if py_int v =? 0 then item_init c (Some (VInt 0)) else Err AssertionError) = Ok i ->
               ival i = py_int v).
  { destruct (py_int v =? 0) eqn:E; [|discriminate]. intros Q.
    apply item_init_ok in Q. cbn [py_int] in Q. lia. }
  destruct c eqn:C;
    lazymatch type of H with
    | match v with _ => _ end = _ => destruct v as [z|n z|n z k] eqn:V
    | _ => idtac
    end;
    lazymatch type of H with
    | (if py_int v =? 0 then _ else _) = _ => exact (ZO H)
    | item_init _ _ = _ =>
        apply item_init_ok in H; destruct H as [_ [H _]];
        try rewrite lookup_int in H; try rewrite usual_unit_int in H; exact H
    | _ => idtac
    end.
  cbn [neg_collection] in N. destruct (mk_collection_int db z) as [j [Hj [_ Hz]]]; [lia|].
  unfold mk_item in Hj. rewrite Hj in H. inversion H. subst. auto.
Qed.

(* when a constructor accepts a number *)
Lemma mk_item_accepts db c v :
  neg_collection c v = false ->
  (exists i, mk_item db c (Some v) = Ok i) <->
  (signed c = true \/ 0 <= py_int v) /\ (zero_only c = true -> py_int v = 0).
Proof.
  intros N. split.
  - intros [i H]. pose proof (mk_item_int _ _ _ _ N H) as HV. rewrite <- HV. clear HV.
    unfold mk_item in H. cbn [lookup_opt bind] in H.
    assert (ZO : (if py_int v =? 0 then item_init c (Some (VInt 0)) else Err AssertionError) = Ok i ->
                 ival i = 0).
    { destruct (py_int v =? 0) eqn:E; [|discriminate]. intros Q.
      apply item_init_ok in Q. cbn [py_int] in Q. lia. }
    destruct c eqn:C;
    lazymatch type of H with
    | match v with _ => _ end = _ => destruct v as [z|n z|n z k] eqn:V
    | _ => idtac
    end;
    lazymatch type of H with
    | (if py_int v =? 0 then _ else _) = _ => apply ZO in H; rewrite H; split; auto with zarith
    | item_init _ _ = _ =>
        apply item_init_ok in H; destruct H as [_ [_ H]];
        split; [exact H | discriminate]
    | _ => idtac
    end.
    cbn [neg_collection] in N. destruct (mk_collection_int db z) as [j [Hj [_ Hz]]]; [lia|].
    unfold mk_item in Hj. rewrite Hj in H. inversion H. subst. split; [right; lia | discriminate].
  - intros [H1 H2]. unfold mk_item. cbn [lookup_opt bind].
    destruct c eqn:C;
    lazymatch goal with
    | |- exists i, match v with _ => _ end = _ => destruct v as [z|n z|n z k] eqn:V
    | _ => idtac
    end;
    lazymatch goal with
    | |- exists i, (if py_int v =? 0 then _ else _) = _ =>
        rewrite (proj2 (Z.eqb_eq _ _) (H2 eq_refl)); apply item_init_some; cbn; auto with zarith
    | |- exists i, item_init _ _ = _ =>
        apply item_init_some; try rewrite lookup_int; try rewrite usual_unit_int; exact H1
    | _ => idtac
    end.
    destruct H1 as [H1|H1]; [discriminate|].
    destruct (mk_collection_int db z H1) as [i [Hi _]]. unfold mk_item in Hi. eauto.
Qed.

(** An item some constructor call can return *)
Definition constructed (i : item) : Prop :=
  exists db v, mk_item db (ic i) v = Ok i.

Lemma constructed_facts i :
  constructed i ->
  (signed (ic i) = true \/ 0 <= ival i)
  /\ (zero_only (ic i) = true -> ival i = 0)
  /\ (ic i = Input -> truthy (iv i) = true)
  /\ (truthy (iv i) = true \/ iv i = VInt 0).
Proof.
  intros [db [v H]].
  assert (INIT : forall c w, item_init c w = Ok i ->
     (signed c = true \/ 0 <= ival i) /\ (truthy (iv i) = true \/ iv i = VInt 0)).
  { intros c w Hi. split; [apply item_init_ok in Hi; tauto|].
    unfold item_init in Hi.
    destruct w as [w|]; [destruct (truthy w) eqn:T|];
      match type of Hi with (if ?b then _ else _) = _ => destruct b end;
      inversion Hi; simpl; auto. }
  assert (D : (signed (ic i) = true \/ 0 <= ival i) /\ (truthy (iv i) = true \/ iv i = VInt 0)).
  { destruct (ic i) eqn:C; simpl in H;
      repeat match type of H with
             | context [match ?x with _ => _ end] => destruct x eqn:?; simpl in H
             end; try discriminate;
      try (apply INIT in H; simpl in H |- *; tauto).
    1: { unfold bind in H.
         destruct (py_index collection_rev z) as [[n q]|] eqn:Q; [|discriminate].
         apply INIT in H; tauto. }
    all: unfold bind in H; destruct (lookup_opt db v); [|discriminate];
      apply INIT in H; tauto. }
  destruct D as [D1 D2]. split; [auto|]. split; [|split; [|auto]].
  - intros Z0. destruct (ic i) eqn:C; try discriminate; simpl in H;
      (destruct v as [v|]; [|discriminate]);
      (destruct (py_int v =? 0) eqn:E; [|discriminate]);
      apply item_init_ok in H; simpl in H; tauto.
  - intros C. rewrite C in H. simpl in H. destruct v as [[z|n z|n z k]|];
      try discriminate; unfold item_init in H; simpl in H;
      match type of H with (if ?b then _ else _) = _ => destruct b end;
      inversion H; reflexivity.
Qed.

(* ------------------------------------------------------------------ *)
(** little-endian lists *)

Lemma le_bytes_length n z : length (le_bytes n z) = n.
Proof. revert z. induction n; simpl; auto. Qed.

Lemma le_bytes_bytes n z : Forall (fun b => 0 <= b < 256) (le_bytes n z).
Proof.
  revert z. induction n; simpl; auto. intros. constructor; auto.
  apply Z.mod_pos_bound; lia.
Qed.

Lemma pow256_S n : 256 ^ Z.of_nat (S n) = 256 * 256 ^ Z.of_nat n.
Proof. rewrite Nat2Z.inj_succ, Z.pow_succ_r; lia. Qed.

Lemma le_value_le_bytes n z : le_value (le_bytes n z) = z mod 256 ^ Z.of_nat n.
Proof.
  revert z. induction n; intros z.
  - simpl. rewrite Z.mod_1_r. auto.
  - rewrite pow256_S. simpl le_bytes. simpl le_value. rewrite IHn.
    rewrite Z.rem_mul_r; auto with zarith.
Qed.

Lemma le_value_bound l :
  Forall (fun b => 0 <= b < 256) l ->
  0 <= le_value l < 256 ^ Z.of_nat (length l).
Proof.
  induction 1 as [|x l Hx Hl IH]; [cbn; lia|]. cbn [length le_value].
  rewrite pow256_S. set (p := 256 ^ Z.of_nat (length l)) in *. lia.
Qed.

Lemma le_bytes_le_value l :
  Forall (fun b => 0 <= b < 256) l -> le_bytes (length l) (le_value l) = l.
Proof.
  induction 1 as [|x l Hx Hl IH]; auto. cbn [length le_value le_bytes]. f_equal.
  - rewrite Z.mul_comm, Z.mod_add by lia. apply Z.mod_small; auto.
  - rewrite Z.mul_comm, Z.div_add, Z.div_small by lia. exact IH.
Qed.

Lemma unsigned_le_value l : unsigned_le l = le_value l.
Proof. reflexivity. Qed.

(* ------------------------------------------------------------------ *)
(** encoding *)

(** [n]-byte payloads *)
Definition fits (sgn : bool) (n : nat) (v : Z) : Prop :=
  match n with
  | O => v = 0
  | _ => if sgn then - 2 ^ (8 * Z.of_nat n - 1) <= v < 2 ^ (8 * Z.of_nat n - 1)
         else 0 <= v < 2 ^ (8 * Z.of_nat n)
  end.

Definition fitsb (sgn : bool) (n : nat) (v : Z) : bool :=
  let w := 8 * Z.of_nat n in
  if sgn then (- 2 ^ (w - 1) <=? v) && (v <? 2 ^ (w - 1))
  else (0 <=? v) && (v <? 2 ^ w).

Lemma fitsb_fits sgn n v : n <> O -> fitsb sgn n v = true <-> fits sgn n v.
Proof.
  intros Hn. unfold fitsb, fits. destruct n; [congruence|]. destruct sgn; lia.
Qed.

Definition width (sgn : bool) (v : Z) : nat :=
  if fitsb sgn 1 v then 1%nat else if fitsb sgn 2 v then 2%nat else 4%nat.

Definition code_of (n : nat) : Z :=
  match n with 0%nat => 0 | 1%nat => 1 | 2%nat => 2 | _ => 3 end.

Definition header (c : icls) (n : nat) : Z :=
  tag_of c * 16 + kind_int (kind_of c) * 4 + code_of n.

Lemma header_lor c n :
  Z.lor (Z.lor (Z.shiftl (tag_of c) 4) (Z.shiftl (kind_int (kind_of c)) 2))
        (code_of n) = header c n.
Proof. destruct c; destruct n as [|[|[|n]]]; reflexivity. Qed.

Lemma pack_eq sgn n z :
  pack sgn n z = if fitsb sgn n z then Ok (le_bytes n z) else Err StructError.
Proof. unfold pack, fitsb. destruct sgn; reflexivity. Qed.

(** what is needed of [int(math.log(m, 2))] *)
Definition good_log (f : Z -> Z) : Prop :=
  (forall m, 0 < m -> 0 <= f m) /\
  forall m, 0 < m < 2 ^ 32 ->
    (f m < 7 <-> m < 2 ^ 7) /\ (f m < 8 <-> m < 2 ^ 8)
    /\ (f m < 15 <-> m < 2 ^ 15) /\ (f m < 16 <-> m < 2 ^ 16).

Lemma log2_good : good_log Z.log2.
Proof.
  split; [intros; apply Z.log2_nonneg|]. intros m Hm.
  repeat split; intros; apply Z.log2_lt_pow2; auto; lia.
Qed.

Definition empty_payload (i : item) : bool :=
  optional (ic i) && negb (truthy (iv i)) && (ival i =? 0).

Definition payload_width (i : item) : nat :=
  if empty_payload i then 0%nat else width (signed (ic i)) (ival i).

Definition in_range (c : icls) (v : Z) : Prop := fits (signed c) 4 v.

Lemma bytes_with_eq f i :
  good_log f ->
  (in_range (ic i) (ival i) ->
   bytes_with f i = Ok (header (ic i) (payload_width i)
                        :: le_bytes (payload_width i) (ival i))).
Proof.
  intros [GP G] R. unfold in_range in R.
  change (2 ^ 7) with 128 in G. change (2 ^ 8) with 256 in G.
  change (2 ^ 15) with 32768 in G. change (2 ^ 16) with 65536 in G.
  change (2 ^ 32) with 4294967296 in *.
  set (W := width (signed (ic i)) (ival i)).
  assert (WF : fitsb (signed (ic i)) W (ival i) = true /\ (W = 1%nat \/ W = 2%nat \/ W = 4%nat)).
  { subst W. unfold width.
    destruct (fitsb (signed (ic i)) 1 (ival i)) eqn:F1; auto.
    destruct (fitsb (signed (ic i)) 2 (ival i)) eqn:F2; auto.
    split; auto. apply fitsb_fits; auto. }
  unfold bytes_with, payload_width, empty_payload.
  set (m0 := ival i) in *. set (sg := signed (ic i)) in *.
  set (neg := sg && (m0 <? 0)). set (m := if neg then - m0 - 1 else m0).
  assert (MB : 0 <= m < 4294967296).
  { unfold m, neg, fits in *. destruct sg; simpl in *;
      [change (2 ^ 31) with 2147483648 in R | change (2 ^ 32) with 4294967296 in R];
      destruct (m0 <? 0) eqn:E; lia. }
  (* the number of bits *)
  assert (BITS : exists bits,
    (if negb (m =? 0) then if m <? 0 then Err ValueError
       else Ok (f m + (if sg then 1 else 0) + 1)
     else Ok (if truthy (iv i) then 1 else 0)) = Ok bits
    /\ ((bits =? 0) && optional (ic i) = optional (ic i) && negb (truthy (iv i)) && (m0 =? 0))
    /\ ((bits =? 0) && optional (ic i) = false ->
        (if bits <=? 8 then 1%nat else if bits <=? 16 then 2%nat else 4%nat) = W)).
  { unfold W, width, fitsb. fold sg m0.
    change (2 ^ (8 * Z.of_nat 1)) with 256. change (2 ^ (8 * Z.of_nat 1 - 1)) with 128.
    change (2 ^ (8 * Z.of_nat 2)) with 65536. change (2 ^ (8 * Z.of_nat 2 - 1)) with 32768.
    destruct (m =? 0) eqn:M0; simpl negb.
    - exists (if truthy (iv i) then 1 else 0). split; auto.
      assert (m0 = 0 \/ (sg = true /\ m0 = -1)) as [Z0|[S1 Z0]]
        by (unfold m, neg in M0; destruct sg; simpl in M0; destruct (m0 <? 0) eqn:E; lia).
      + rewrite Z0. simpl. split.
        * destruct (truthy (iv i)), (optional (ic i)); reflexivity.
        * intros _. destruct (truthy (iv i)), sg; reflexivity.
      + rewrite Z0. split.
        * assert (O : optional (ic i) = false) by (unfold sg in S1; destruct (ic i); simpl in *; congruence).
          rewrite O, andb_false_r. reflexivity.
        * rewrite S1. destruct (truthy (iv i)); reflexivity.
    - assert (MP : 0 < m < 4294967296) by lia.
      assert ((m <? 0) = false) as -> by lia.
      exists (f m + (if sg then 1 else 0) + 1). split; auto.
      pose proof (GP m (proj1 MP)) as F0. destruct (G m MP) as [P7 [P8 [P15 P16]]]. clear G.
      assert (N0 : m0 <> 0) by (unfold m, neg in *; destruct sg; simpl in *; destruct (m0 <? 0) eqn:E; lia).
      assert (OPT : optional (ic i) = true -> sg = false) by (unfold sg; destruct (ic i); simpl; congruence).
      split.
      + replace (m0 =? 0) with false by lia. rewrite andb_false_r.
        apply andb_false_iff.
        destruct (optional (ic i)) eqn:O; [left|right; auto].
        rewrite (OPT eq_refl) in *.
        lia.
      + intros _. unfold m, neg in *. destruct sg; simpl in *.
        * destruct (m0 <? 0) eqn:E;
          repeat match goal with |- context [if ?b then _ else _] => destruct b eqn:? end; try reflexivity; lia.
        * repeat match goal with |- context [if ?b then _ else _] => destruct b eqn:? end; try reflexivity; lia. }
  destruct BITS as [bits [-> [E1 E2]]]. unfold bind at 1. rewrite E1.
  fold W. unfold fitsb, width in *.
  destruct (optional (ic i) && negb (truthy (iv i)) && (m0 =? 0)) eqn:E.
  - cbv beta iota zeta. rewrite <- header_lor. reflexivity.
  - rewrite E1 in E2. rewrite E2 by auto. destruct WF as [WF WW].
    rewrite <- header_lor.
    destruct WW as [WW|[WW|WW]]; rewrite WW in *; cbv iota; rewrite pack_eq;
      unfold fitsb; rewrite WF; reflexivity.
Qed.


Lemma fitsb_mono sgn n v :
  (n = 1 \/ n = 2 \/ n = 4)%nat -> fitsb sgn n v = true -> fitsb sgn 4 v = true.
Proof.
  unfold fitsb.
  change (2 ^ (8 * Z.of_nat 4)) with 4294967296. change (2 ^ (8 * Z.of_nat 4 - 1)) with 2147483648.
  intros [->|[->| ->]];
  [change (2 ^ (8 * Z.of_nat 1)) with 256; change (2 ^ (8 * Z.of_nat 1 - 1)) with 128
  |change (2 ^ (8 * Z.of_nat 2)) with 65536; change (2 ^ (8 * Z.of_nat 2 - 1)) with 32768
  |change (2 ^ (8 * Z.of_nat 4)) with 4294967296; change (2 ^ (8 * Z.of_nat 4 - 1)) with 2147483648];
  destruct sgn; lia.
Qed.

Lemma bytes_with_range f i b :
  (forall m, 0 < m -> 0 <= f m) -> bytes_with f i = Ok b -> in_range (ic i) (ival i).
Proof.
  intros GP H. unfold in_range. apply fitsb_fits; [lia|].
  destruct (fitsb (signed (ic i)) 4 (ival i)) eqn:F; auto. exfalso.
  unfold bytes_with in H.
  set (m := if signed (ic i) && (ival i <? 0) then - ival i - 1 else ival i) in *.
  destruct (m =? 0) eqn:M0; simpl negb in H; cbv iota in H.
  - assert (fitsb (signed (ic i)) 4 (ival i) = true); [|congruence].
    assert (ival i = 0 \/ (signed (ic i) = true /\ ival i = -1)) as [->|[-> ->]]
      by (unfold m in M0; destruct (signed (ic i)); simpl in M0; destruct (ival i <? 0) eqn:E; lia);
      try reflexivity. destruct (signed (ic i)); reflexivity.
  - destruct (m <? 0) eqn:MN; [discriminate|]. unfold bind at 1 in H.
    assert (FM := GP m ltac:(lia)).
    match type of H with context [(?b =? 0) && optional (ic i)] =>
      replace (b =? 0) with false in H by (destruct (signed (ic i)); lia) end.
    simpl andb in H. cbv iota in H.
    repeat match type of H with context [if ?b <=? ?k then _ else _] => destruct (b <=? k) eqn:? end;
      cbv iota in H; rewrite pack_eq in H;
      match type of H with context [fitsb ?s ?n ?v] => destruct (fitsb s n v) eqn:FF end;
      try discriminate; apply fitsb_mono in FF; try congruence; auto.
Qed.

Lemma bytes_with_iff f i :
  good_log f -> (exists b, bytes_with f i = Ok b) <-> in_range (ic i) (ival i).
Proof.
  intros G. split.
  - intros [b H]. eapply bytes_with_range; eauto. apply G.
  - intros R. eexists. apply bytes_with_eq; auto.
Qed.

Lemma bytes_eq i :
  in_range (ic i) (ival i) ->
  bytes i = Ok (header (ic i) (payload_width i) :: le_bytes (payload_width i) (ival i)).
Proof. apply bytes_with_eq, log2_good. Qed.

Lemma width_fits sgn v : fits sgn 4 v -> fits sgn (width sgn v) v.
Proof.
  intros R. unfold width.
  destruct (fitsb sgn 1 v) eqn:F1; [apply fitsb_fits; auto|].
  destruct (fitsb sgn 2 v) eqn:F2; [apply fitsb_fits; auto|]. auto.
Qed.

Lemma payload_fits i :
  in_range (ic i) (ival i) -> fits (signed (ic i)) (payload_width i) (ival i).
Proof.
  intros R. unfold payload_width. destruct (empty_payload i) eqn:E.
  - unfold empty_payload in E. simpl. lia.
  - apply width_fits, R.
Qed.

Lemma payload_sizes i :
  (payload_width i = 0 \/ payload_width i = 1 \/ payload_width i = 2 \/ payload_width i = 4)%nat.
Proof.
  unfold payload_width, width. destruct (empty_payload i); auto.
  destruct (fitsb _ 1 _); auto. destruct (fitsb _ 2 _); auto.
Qed.

(* ------------------------------------------------------------------ *)
(** decoding *)

Definition decode (sgn : bool) (l : list Z) : Z :=
  if sgn then signed_le l else unsigned_le l.

Lemma decode_encode sgn n v :
  (n = 0 \/ n = 1 \/ n = 2 \/ n = 4)%nat -> fits sgn n v -> decode sgn (le_bytes n v) = v.
Proof.
  intros Hn F. unfold decode, signed_le. change unsigned_le with le_value.
  rewrite le_bytes_length, le_value_le_bytes.
  unfold fits in F.
  destruct Hn as [->|[->|[->| ->]]]; simpl in F.
  - subst. destruct sgn; reflexivity.
  - change (256 ^ Z.of_nat 1) with 256. destruct sgn; [|apply Z.mod_small; lia].
    destruct (256 <=? 2 * (v mod 256)) eqn:E; lia.
  - change (256 ^ Z.of_nat 2) with 65536. destruct sgn; [|apply Z.mod_small; lia].
    destruct (65536 <=? 2 * (v mod 65536)) eqn:E; lia.
  - change (256 ^ Z.of_nat 4) with 4294967296. destruct sgn; [|apply Z.mod_small; lia].
    destruct (4294967296 <=? 2 * (v mod 4294967296)) eqn:E; lia.
Qed.

Lemma decode_fits sgn l :
  (length l = 0 \/ length l = 1 \/ length l = 2 \/ length l = 4)%nat ->
  Forall (fun b => 0 <= b < 256) l -> fits sgn (length l) (decode sgn l).
Proof.
  intros Hn F. apply le_value_bound in F. unfold decode, signed_le. change unsigned_le with le_value.
  set (v := le_value l) in *. unfold fits.
  destruct Hn as [Hn|[Hn|[Hn|Hn]]]; rewrite Hn in *.
  - simpl in F. change (256 ^ Z.of_nat 0) with 1. destruct sgn; [|lia].
    destruct (1 <=? 2 * v) eqn:E; lia.
  - change (256 ^ Z.of_nat 1) with 256 in *. change (2 ^ (8 * Z.of_nat 1)) with 256.
    change (2 ^ (8 * Z.of_nat 1 - 1)) with 128.
    destruct sgn; [|lia]. destruct (256 <=? 2 * v) eqn:E; lia.
  - change (256 ^ Z.of_nat 2) with 65536 in *. change (2 ^ (8 * Z.of_nat 2)) with 65536.
    change (2 ^ (8 * Z.of_nat 2 - 1)) with 32768.
    destruct sgn; [|lia]. destruct (65536 <=? 2 * v) eqn:E; lia.
  - change (256 ^ Z.of_nat 4) with 4294967296 in *. change (2 ^ (8 * Z.of_nat 4)) with 4294967296.
    change (2 ^ (8 * Z.of_nat 4 - 1)) with 2147483648.
    destruct sgn; [|lia]. destruct (4294967296 <=? 2 * v) eqn:E; lia.
Qed.

Lemma fits_range sgn n v :
  (n = 0 \/ n = 1 \/ n = 2 \/ n = 4)%nat -> fits sgn n v -> fits sgn 4 v.
Proof.
  intros [->|H] F.
  - simpl in F. subst. destruct sgn; simpl; lia.
  - apply fitsb_fits; [lia|]. eapply fitsb_mono; eauto. apply fitsb_fits; auto. lia.
Qed.

Lemma unpack_decode sgn n l :
  (n = 1 \/ n = 2 \/ n = 4)%nat -> Forall (fun b => 0 <= b < 256) l ->
  length l = n -> unpack sgn n l = Ok (decode sgn l).
Proof.
  intros Hn F L. unfold unpack, decode, signed_le. change unsigned_le with le_value.
  rewrite L, Nat.eqb_refl.
  apply le_value_bound in F. rewrite L in F. set (v := le_value l) in *.
  destruct sgn; [|reflexivity]. simpl andb.
  destruct Hn as [->|[->| ->]].
  - change (2 ^ (8 * Z.of_nat 1 - 1)) with 128. change (256 ^ Z.of_nat 1) with 256.
    change (2 ^ (8 * Z.of_nat 1)) with 256.
    destruct (128 <=? v) eqn:E1, (256 <=? 2 * v) eqn:E2; auto; lia.
  - change (2 ^ (8 * Z.of_nat 2 - 1)) with 32768. change (256 ^ Z.of_nat 2) with 65536.
    change (2 ^ (8 * Z.of_nat 2)) with 65536.
    destruct (32768 <=? v) eqn:E1, (65536 <=? 2 * v) eqn:E2; auto; lia.
  - change (2 ^ (8 * Z.of_nat 4 - 1)) with 2147483648. change (256 ^ Z.of_nat 4) with 4294967296.
    change (2 ^ (8 * Z.of_nat 4)) with 4294967296.
    destruct (2147483648 <=? v) eqn:E1, (4294967296 <=? 2 * v) eqn:E2; auto; lia.
Qed.

Lemma unpack_short sgn n l : length l <> n -> unpack sgn n l = Err StructError.
Proof.
  intros H. unfold unpack. destruct (Nat.eqb_spec (length l) n); congruence.
Qed.

Lemma prefix_kind h : Z.land (Z.shiftr h 2) 3 = (h / 4) mod 4.
Proof.
  rewrite Z.shiftr_div_pow2 by lia. change 3 with (Z.ones 2). rewrite Z.land_ones by lia. reflexivity.
Qed.
Lemma prefix_tag h : Z.shiftr h 4 = h / 16.
Proof. rewrite Z.shiftr_div_pow2 by lia. reflexivity. Qed.
Lemma prefix_size h : Z.land h 3 = h mod 4.
Proof. change 3 with (Z.ones 2). rewrite Z.land_ones by lia. reflexivity. Qed.

Lemma size_cases h :
  (size_of_code (h mod 4) = 0 \/ size_of_code (h mod 4) = 1 \/
   size_of_code (h mod 4) = 2 \/ size_of_code (h mod 4) = 4)%nat.
Proof.
  unfold size_of_code. pose proof (Z.mod_pos_bound h 4).
  assert (h mod 4 = 0 \/ h mod 4 = 1 \/ h mod 4 = 2 \/ h mod 4 = 3) as D by lia.
  destruct D as [->|[->|[->| ->]]]; simpl; auto.
Qed.

(* parsing a complete short item *)
Lemma parse_complete db h data :
  Forall (fun b => 0 <= b < 256) data ->
  length data = size_of_code (h mod 4) ->
  parse db (h :: data) =
  match hid_class ((h / 4) mod 4) (h / 16) with
  | None => Err KeyError
  | Some c => mk_item db c (Some (VInt (decode (signed c) data)))
  end.
Proof.
  intros F L. unfold parse. rewrite prefix_kind, prefix_tag, prefix_size, itemclass_hid.
  destruct (hid_class _ _) as [c|]; auto.
  pose proof (Z.mod_pos_bound h 4).
  assert (h mod 4 = 0 \/ h mod 4 = 1 \/ h mod 4 = 2 \/ h mod 4 = 3) as D by lia.
  unfold size_of_code in L.
  destruct D as [D|[D|[D|D]]]; rewrite D in *; simpl in L;
    change (1 =? 1) with true; change (2 =? 1) with false; change (2 =? 2) with true;
    change (3 =? 1) with false; change (3 =? 2) with false; change (3 =? 3) with true;
    change (0 =? 1) with false; change (0 =? 2) with false; change (0 =? 3) with false;
    cbv iota; try (rewrite unpack_decode by (auto; lia)); try reflexivity.
  destruct data; [|discriminate]. destruct (signed c); reflexivity.
Qed.

(* a truncated item is never accepted *)
Lemma parse_truncated db h data :
  (length data < size_of_code (h mod 4))%nat ->
  exists e, parse db (h :: data) = Err e.
Proof.
  intros L. unfold parse. rewrite prefix_kind, prefix_tag, prefix_size.
  destruct (itemclass _ _) as [c|]; eauto.
  pose proof (Z.mod_pos_bound h 4).
  assert (h mod 4 = 0 \/ h mod 4 = 1 \/ h mod 4 = 2 \/ h mod 4 = 3) as D by lia.
  unfold size_of_code in L.
  destruct D as [D|[D|[D|D]]]; rewrite D in *; simpl in L; try lia;
    change (1 =? 1) with true; change (2 =? 1) with false; change (2 =? 2) with true;
    change (3 =? 1) with false; change (3 =? 2) with false; change (3 =? 3) with true;
    cbv iota; rewrite unpack_short by lia; simpl; eauto.
Qed.

Lemma header_fields c n :
  0 <= header c n < 256 /\ header c n mod 4 = code_of n
  /\ (header c n / 4) mod 4 = kind_int (kind_of c) /\ header c n / 16 = tag_of c.
Proof.
  destruct c; destruct n as [|[|[|n]]]; vm_compute; repeat split; congruence.
Qed.

Lemma size_of_code_of n :
  (n = 0 \/ n = 1 \/ n = 2 \/ n = 4)%nat -> size_of_code (code_of n) = n.
Proof. intros [->|[->|[->| ->]]]; reflexivity. Qed.

Lemma parse_bytes db i b :
  bytes i = Ok b -> parse db b = mk_item db (ic i) (Some (VInt (ival i))).
Proof.
  intros H.
  assert (R : in_range (ic i) (ival i)) by (eapply bytes_with_range; [|apply H]; intros; apply Z.log2_nonneg).
  rewrite (bytes_eq i R) in H. inversion H. subst.
  destruct (header_fields (ic i) (payload_width i)) as [HB [H4 [HK HT]]].
  rewrite parse_complete.
  - rewrite HK, HT, hid_class_tag, decode_encode; auto. apply payload_sizes. apply payload_fits; auto.
  - apply le_bytes_bytes.
  - rewrite le_bytes_length, H4, size_of_code_of; auto. apply payload_sizes.
Qed.

Lemma reparse_ok db i :
  constructed i ->
  exists j, mk_item db (ic i) (Some (VInt (ival i))) = Ok j
            /\ ic j = ic i /\ ival j = ival i /\ constructed j.
Proof.
  intros C. pose proof (constructed_facts i C) as [H1 [H2 _]].
  destruct (proj2 (mk_item_accepts db (ic i) (VInt (ival i)) ltac:(destruct (ic i); simpl; try reflexivity; simpl in H1; lia))) as [j Hj].
  { simpl. auto. }
  exists j. split; auto. pose proof (mk_item_class _ _ _ _ Hj) as Hc. split; auto.
  split.
  - apply mk_item_int in Hj; auto. destruct (ic i) eqn:CI; simpl; try reflexivity. simpl in H1. destruct H1; [discriminate|lia].
  - exists db, (Some (VInt (ival i))). rewrite Hc. auto.
Qed.
