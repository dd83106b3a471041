(* UsageProofs.v -- usages, ranges, units *)
From Coq Require Import ZifyBool ZifyNat.
From Verif Require Import Py Usage Item HidSpec Spec ItemFacts ParserFacts.
Ltac Zify.zify_post_hook ::= Z.div_mod_to_equations.

(* ------------------------------------------------------------------ *)
(** units *)

Lemma lor_disjoint k a b :
  0 <= k -> 0 <= a < 2 ^ k -> Z.lor a (b * 2 ^ k) = a + b * 2 ^ k.
Proof.
  intros Hk Ha.
  assert (D : Z.land a (b * 2 ^ k) = 0).
  { apply Z.bits_inj'. intros n Hn. rewrite Z.land_spec, Z.bits_0.
    destruct (Z.ltb_spec n k).
    - rewrite Z.mul_pow2_bits_low by lia. apply andb_false_r.
    - destruct (Z.eq_dec a 0) as [->|]; [rewrite Z.bits_0; reflexivity|].
      rewrite (Z.bits_above_log2 a n); auto; try lia.
      apply Z.log2_lt_pow2; try lia.
      apply Z.lt_le_trans with (2 ^ k); [lia|].
      apply Z.pow_le_mono_r; lia. }
  rewrite <- Z.lxor_lor, <- Z.add_nocarry_lxor by exact D. reflexivity.
Qed.

Lemma unit_nibble_ok v p :
  0 <= p -> -8 <= v <= 7 -> unit_nibble v p = Ok ((v mod 16) * 2 ^ (p * 4)).
Proof.
  intros Hp H. unfold unit_nibble.
  replace ((-8 <=? v) && (v <=? 7)) with true by lia.
  rewrite Z.shiftl_mul_pow2 by lia.
  replace (if v <? 0 then v + 16 else v) with (v mod 16); auto.
  destruct (v <? 0) eqn:E; lia.
Qed.

Lemma unit_nibble_bad v p : ~ (-8 <= v <= 7) -> unit_nibble v p = Err AssertionError.
Proof.
  intros H. unfold unit_nibble. replace ((-8 <=? v) && (v <=? 7)) with false by lia. reflexivity.
Qed.

(** nibble [p] of [z] in two's complement *)
Definition nibble (p : nat) (z : Z) : Z :=
  let n := (z / 16 ^ Z.of_nat p) mod 16 in if n <? 8 then n else n - 16.

Lemma c14 s l m t k c i :
  0 <= s < 16 ->
  Forall (fun x => -8 <= x <= 7) [l; m; t; k; c; i] ->
  exists l' m' t' k' c' i',
    unit_length l = Ok l' /\ unit_mass m = Ok m' /\ unit_time t = Ok t' /\
    unit_temperature k = Ok k' /\ unit_current c = Ok c' /\ unit_luminousintensity i = Ok i' /\
    let u := Z.lor (Z.lor (Z.lor (Z.lor (Z.lor (Z.lor s l') m') t') k') c') i' in
    0 <= u < 2 ^ 28 /\ u mod 16 = s /\
    nibble 1 u = l /\ nibble 2 u = m /\ nibble 3 u = t /\
    nibble 4 u = k /\ nibble 5 u = c /\ nibble 6 u = i.
Proof.
  intros Hs F.
  repeat match goal with H : Forall _ (_ :: _) |- _ => inversion H; clear H; subst end.
  unfold unit_length, unit_mass, unit_time, unit_temperature, unit_current, unit_luminousintensity.
  rewrite !unit_nibble_ok by lia.
  do 6 eexists. do 6 (split; [reflexivity|]). cbv zeta.
  change (1 * 4) with 4. change (2 * 4) with 8. change (3 * 4) with 12. change (4 * 4) with 16.
  change (5 * 4) with 20. change (6 * 4) with 24.
  assert (B : forall x, 0 <= x mod 16 < 16) by (intros; apply Z.mod_pos_bound; lia).
  pose proof (B l). pose proof (B m). pose proof (B t). pose proof (B k). pose proof (B c).
  pose proof (B i). clear B.
  assert (forall x, -8 <= x <= 7 -> (if x mod 16 <? 8 then x mod 16 else x mod 16 - 16) = x) as N.
  { intros x Hx. destruct (x mod 16 <? 8) eqn:E; lia. }
  pose proof (N l ltac:(auto)) as Nl. pose proof (N m ltac:(auto)) as Nm.
  pose proof (N t ltac:(auto)) as Nt. pose proof (N k ltac:(auto)) as Nk.
  pose proof (N c ltac:(auto)) as Nc. pose proof (N i ltac:(auto)) as Ni. clear N.
  set (a1 := l mod 16) in *. set (a2 := m mod 16) in *. set (a3 := t mod 16) in *.
  set (a4 := k mod 16) in *. set (a5 := c mod 16) in *. set (a6 := i mod 16) in *.
  rewrite (lor_disjoint 4 s a1) by (change (2 ^ 4) with 16; lia).
  rewrite (lor_disjoint 8 _ a2) by (change (2 ^ 4) with 16; change (2 ^ 8) with 256; lia).
  rewrite (lor_disjoint 12 _ a3)
    by (change (2 ^ 4) with 16; change (2 ^ 8) with 256; change (2 ^ 12) with 4096; lia).
  rewrite (lor_disjoint 16 _ a4)
    by (change (2 ^ 4) with 16; change (2 ^ 8) with 256; change (2 ^ 12) with 4096;
        change (2 ^ 16) with 65536; lia).
  rewrite (lor_disjoint 20 _ a5)
    by (change (2 ^ 4) with 16; change (2 ^ 8) with 256; change (2 ^ 12) with 4096;
        change (2 ^ 16) with 65536; change (2 ^ 20) with 1048576; lia).
  rewrite (lor_disjoint 24 _ a6)
    by (change (2 ^ 4) with 16; change (2 ^ 8) with 256; change (2 ^ 12) with 4096;
        change (2 ^ 16) with 65536; change (2 ^ 20) with 1048576;
        change (2 ^ 24) with 16777216; lia).
  change (2 ^ 4) with 16; change (2 ^ 8) with 256; change (2 ^ 12) with 4096;
    change (2 ^ 16) with 65536; change (2 ^ 20) with 1048576; change (2 ^ 24) with 16777216;
    change (2 ^ 28) with 268435456.
  clearbody a1 a2 a3 a4 a5 a6.
  assert (NB : forall p v lo hi, lo < 16 ^ Z.of_nat p -> 0 <= lo -> 0 <= v < 16 ->
      nibble p (lo + 16 ^ Z.of_nat p * (v + 16 * hi)) = (if v <? 8 then v else v - 16)).
  { intros p v lo hi L0 L1 V. unfold nibble.
    replace ((lo + 16 ^ Z.of_nat p * (v + 16 * hi)) / 16 ^ Z.of_nat p) with (v + 16 * hi).
    - replace ((v + 16 * hi) mod 16) with v by lia. reflexivity.
    - apply Z.div_unique with lo; lia. }
  assert (P : 16 ^ Z.of_nat 1 = 16 /\ 16 ^ Z.of_nat 2 = 256 /\ 16 ^ Z.of_nat 3 = 4096 /\
              16 ^ Z.of_nat 4 = 65536 /\ 16 ^ Z.of_nat 5 = 1048576 /\ 16 ^ Z.of_nat 6 = 16777216)
    by (repeat split; reflexivity).
  destruct P as [P1 [P2 [P3 [P4 [P5 P6]]]]].
  split; [lia|]. split; [lia|].
  split; [|split; [|split; [|split; [|split]]]].
  - rewrite <- Nl, <- (NB 1%nat a1 s (a2 + a3*16 + a4*256 + a5*4096 + a6*65536)) by lia.
    f_equal. rewrite P1. lia.
  - rewrite <- Nm, <- (NB 2%nat a2 (s + a1*16) (a3 + a4*16 + a5*256 + a6*4096)) by lia.
    f_equal. rewrite P2. lia.
  - rewrite <- Nt, <- (NB 3%nat a3 (s + a1*16 + a2*256) (a4 + a5*16 + a6*256)) by lia.
    f_equal. rewrite P3. lia.
  - rewrite <- Nk, <- (NB 4%nat a4 (s + a1*16 + a2*256 + a3*4096) (a5 + a6*16)) by lia.
    f_equal. rewrite P4. lia.
  - rewrite <- Nc, <- (NB 5%nat a5 (s + a1*16 + a2*256 + a3*4096 + a4*65536) a6) by lia.
    f_equal. rewrite P5. lia.
  - rewrite <- Ni, <- (NB 6%nat a6 (s + a1*16 + a2*256 + a3*4096 + a4*65536 + a5*1048576) 0) by lia.
    f_equal. rewrite P6. lia.
Qed.

Lemma c14_reject x :
  ~ (-8 <= x <= 7) ->
  unit_length x = Err AssertionError /\ unit_mass x = Err AssertionError /\
  unit_time x = Err AssertionError /\ unit_temperature x = Err AssertionError /\
  unit_current x = Err AssertionError /\ unit_luminousintensity x = Err AssertionError.
Proof. intros H. repeat split; apply unit_nibble_bad; auto. Qed.

(* ------------------------------------------------------------------ *)
(** usages *)

Lemma c16 db v :
  py_int (lookup db v) = py_int v /\
  py_int (fst (split (lookup db v))) = py_int v / 65536 /\
  py_int (snd (split (lookup db v))) = py_int v mod 65536.
Proof.
  rewrite split_page, split_id, lookup_int, shiftr_16, land_ffff. auto.
Qed.

Lemma c16_inpage db page no :
  0 <= no < 65536 -> py_int (inpage db page no) = no.
Proof. apply inpage_int. Qed.

Lemma upto_zrange a b : zrange a (b + 1) = upto a b.
Proof. unfold zrange, upto. replace (b + 1 - a) with (b - a + 1) by lia. reflexivity. Qed.

Lemma map_lookup db l : map py_int (map (fun z => lookup db (VInt z)) l) = l.
Proof.
  rewrite map_map. rewrite <- (map_id l) at 2. apply map_ext. intros. apply lookup_int.
Qed.

Lemma range_iter_ints db r :
  map py_int (range_iter db r) = upto (py_int (r_min r)) (py_int (r_max r)).
Proof. unfold range_iter. rewrite map_lookup, upto_zrange. reflexivity. Qed.

Lemma upto_length a b : length (upto a b) = Z.to_nat (b - a + 1).
Proof. unfold upto. rewrite map_length, seq_length. reflexivity. Qed.

Lemma range_len_ok db r :
  py_int (r_min r) <= py_int (r_max r) + 1 ->
  range_len r = Ok (Z.of_nat (length (range_iter db r))).
Proof.
  intros H. unfold range_len.
  rewrite <- (map_length py_int), range_iter_ints, upto_length.
  replace (_ <? 0) with false by lia. f_equal. lia.
Qed.

Lemma range_getitem_ok db r k x :
  nth_error (range_iter db r) k = Some x -> range_getitem db r (Z.of_nat k) = Ok x.
Proof.
  unfold range_iter, zrange, range_getitem. rewrite map_map, nth_error_map.
  destruct (nth_error (seq _ _) k) as [n|] eqn:E; simpl; [|discriminate].
  assert (K : (k < length (seq 0 (Z.to_nat (py_int (r_max r) + 1 - py_int (r_min r)))))%nat)
    by (apply nth_error_Some; congruence).
  apply (nth_error_nth _ _ 0%nat) in E. rewrite seq_nth in E by (rewrite seq_length in K; lia).
  intros H. injection H as <-. rewrite <- E. reflexivity.
Qed.

(** consecutive numbers *)
Definition consecutive (l : list Z) : Prop :=
  forall k x y, nth_error l k = Some x -> nth_error l (S k) = Some y -> y = x + 1.

Lemma contiguous_spec l : contiguous l = true <-> consecutive (map py_int l).
Proof.
  induction l as [|a l IH].
  - split; auto. intros _ k x y H. destruct k; discriminate.
  - destruct l as [|b l].
    + split; auto. intros _ k x y H1 H2. destruct k as [|[|k]]; simpl in H2; discriminate.
    + cbn [contiguous]. rewrite andb_true_iff, IH. split.
      * intros [E C] k x y H1 H2. destruct k as [|k].
        -- simpl in H1, H2. injection H1 as <-. injection H2 as <-. lia.
        -- apply (C k x y); auto.
      * intros C. split.
        -- specialize (C 0%nat (py_int a) (py_int b) eq_refl eq_refl). lia.
        -- intros k x y H1 H2. apply (C (S k) x y); auto.
Qed.

Lemma seq_upto a n :
  (0 < n)%nat -> upto a (a + Z.of_nat n - 1) = map (fun k => a + Z.of_nat k) (seq 0 n).
Proof. intros. unfold upto. do 2 f_equal. lia. Qed.

Lemma consecutive_upto x l :
  consecutive (x :: l) -> x :: l = map (fun k => x + Z.of_nat k) (seq 0 (S (length l))).
Proof.
  revert x. induction l as [|y l IH]; intros x C.
  - simpl. f_equal. lia.
  - pose proof (C 0%nat x y eq_refl eq_refl) as E. 
    assert (C' : consecutive (y :: l)).
    { intros k u v H1 H2. apply (C (S k) u v); auto. }
    specialize (IH y C').
    change (length (y :: l)) with (S (length l)).
    rewrite <- cons_seq, <- seq_shift. cbn [map]. f_equal; [lia|].
    rewrite map_map. rewrite IH. apply map_ext. intros k. lia.
Qed.

Lemma last_consecutive x l :
  consecutive (x :: l) -> last (x :: l) x = x + Z.of_nat (length l).
Proof.
  intros C. rewrite (consecutive_upto x l C).
  rewrite seq_S, map_app. simpl (map _ [_]). rewrite last_last. lia.
Qed.

Lemma last_map {A B} (f : A -> B) l d : last (map f l) (f d) = f (last l d).
Proof.
  induction l as [|x l IH]; auto. destruct l as [|y l]; auto.
Qed.

Lemma c17_from_array l :
  (exists r, from_array l = Ok r) <-> (2 <= length l)%nat /\ consecutive (map py_int l).
Proof.
  split.
  - intros [r H]. destruct l as [|x [|y l]]; try discriminate. unfold from_array in H.
    destruct (contiguous (x :: y :: l)) eqn:E; [|discriminate].
    apply contiguous_spec in E. split; auto. simpl. lia.
  - intros [L C]. destruct l as [|x [|y l]]; try (simpl in L; lia). unfold from_array.
    apply contiguous_spec in C. rewrite C. eauto.
Qed.

Lemma c17_back db l r :
  from_array l = Ok r -> map py_int (range_iter db r) = map py_int l.
Proof.
  intros H. destruct (proj1 (c17_from_array l) (ex_intro _ r H)) as [L C].
  destruct l as [|x [|y l]]; try (simpl in L; lia). unfold from_array in H.
  apply contiguous_spec in C. rewrite C in H. apply contiguous_spec in C. injection H as <-.
  rewrite range_iter_ints.
  change (upto (py_int x) (py_int (last (x :: y :: l) x)) = map py_int (x :: y :: l)).
  rewrite <- (last_map py_int (x :: y :: l) x). cbn [map] in C |- *.
  rewrite (last_consecutive _ _ C). rewrite (consecutive_upto _ _ C) at 1.
  rewrite <- seq_upto by lia. f_equal. lia.
Qed.

(* ------------------------------------------------------------------ *)
(** Value.__init__ *)
From Verif Require Import Parser Optimizer Descriptor.

(** no named array, or an empty one *)
Definition no_array (a : option narr) : Prop :=
  match a with
  | None => True
  | Some (NList l) => l = []
  | Some (NRange r) => py_int (r_max r) + 1 = py_int (r_min r)
  end.

Definition array_size (a : narr) : Z :=
  match a with
  | NList l => Z.of_nat (length l)
  | NRange r => py_int (r_max r) + 1 - py_int (r_min r)
  end.

Lemma land_1_odd f : (Z.land f fl_Constant =? 0) = Z.even f.
Proof.
  change fl_Constant with (Z.ones 1). rewrite Z.land_ones by lia. change (2 ^ 1) with 2.
  rewrite Zmod_even. destruct (Z.even f); reflexivity.
Qed.

Lemma truthy_no_array a : no_array a -> narr_truthy a = Ok false.
Proof.
  destruct a as [[l|r]|]; intros H; simpl in H; auto.
  - subst. reflexivity.
  - unfold narr_truthy, narr_len, range_len. simpl.
    replace (_ <? 0) with false by lia. simpl. do 2 f_equal. lia.
Qed.

Lemma truthy_array a b :
  narr_truthy a = Ok b -> b = false /\ no_array a
  \/ b = true /\ exists x, a = Some x /\ narr_len x = Ok (array_size x) /\ 0 < array_size x.
Proof.
  destruct a as [[l|r]|]; unfold narr_truthy, narr_len; intros H.
  - simpl in H. injection H as <-. destruct l as [|x l]; [left; split; reflexivity|].
    right. split; [|exists (NList (x :: l)); repeat split]; simpl length; simpl; lia.
  - unfold range_len in H. destruct (_ <? 0) eqn:E; [discriminate|]. simpl in H.
    injection H as <-. destruct (_ =? 0) eqn:F.
    + left. split; auto. simpl. lia.
    + right. split; auto. exists (NRange r). split; auto. unfold narr_len, range_len.
      rewrite E. simpl array_size. split; [f_equal|]; lia.
  - left. injection H as <-. split; simpl; auto.
Qed.

Lemma c22_reject k a :
  a_lmin a = None \/ a_lmax a = None -> no_array (a_named a) ->
  Z.even (py_int (a_flags a)) = true -> mk_value k a = Err ValueError.
Proof.
  intros L N F. unfold mk_value. rewrite (truthy_no_array _ N). cbn [bind].
  rewrite land_1_odd, F.
  destruct (a_lmin a), (a_lmax a); destruct L as [L|L]; try discriminate; reflexivity.
Qed.

Lemma c22_accept k a :
  (a_lmin a <> None /\ a_lmax a <> None \/ Z.even (py_int (a_flags a)) = false) ->
  no_array (a_named a) -> exists v, mk_value k a = Ok v.
Proof.
  intros L N. unfold mk_value. rewrite (truthy_no_array _ N). cbn [bind].
  rewrite land_1_odd.
  replace (_ && _) with false.
  - destruct (zero_or_none _ && _); destruct (a_named a); eauto.
  - destruct L as [[L1 L2]| ->]; [|rewrite andb_false_r; auto].
    destruct (a_lmin a), (a_lmax a); try congruence. reflexivity.
Qed.

Lemma c22_common k a v :
  mk_value k a = Ok v ->
  v_kind v = k /\ v_way v = a_way a /\ v_usage v = a_usage a /\ v_size v = a_size a /\
  v_lmin v = a_lmin a /\ v_named v = a_named a /\ v_unit v = a_unit a /\ v_uexp v = a_uexp a /\
  v_desig v = a_desig a /\ v_str v = a_str a /\ v_count v = a_count a /\
  (forall n, a_align a = Some n -> v_align v = n) /\
  (a_align a = None -> v_align v = if 8 <=? a_size a then 8 else a_size a).
Proof.
  unfold mk_value. intros H.
  destruct (narr_truthy (a_named a)) as [b|e]; [|discriminate]. cbn [bind] in H.
  destruct (_ && _ && _) in H; [discriminate|].
  assert (M : match a_align a with Some n => n | None => Z.min 8 (a_size a) end
              = match a_align a with Some n => n | None => if 8 <=? a_size a then 8 else a_size a end).
  { destruct (a_align a); auto. destruct (8 <=? a_size a) eqn:E; lia. }
  rewrite M in H.
  destruct (zero_or_none _ && _) in H;
  (destruct (a_named a) as [x|] eqn:N; [destruct b; [destruct (narr_len x) as [n|]; [|discriminate];
    cbn [bind] in H; destruct (a_lmin a) eqn:L; [|discriminate]|]|]);
  injection H as <-; simpl; rewrite ?L, ?N; repeat split; auto;
  intros; try (match goal with H : a_align a = _ |- _ => rewrite H; reflexivity end).
Qed.

(** the physical bounds: both absent or zero means "as the logical bounds given" *)
Definition given (o : option Z) : Prop := exists z, o = Some z /\ z <> 0.

Lemma zon o : zero_or_none o = true <-> ~ given o.
Proof.
  unfold given. destruct o as [z|]; simpl; split; intros H; auto.
  - intros [y [E N]]. injection E as <-. lia.
  - destruct (Z.eqb_spec z 0); auto. exfalso. eauto.
  - intros [y [E N]]. discriminate.
Qed.

Lemma c22_physical k a v :
  mk_value k a = Ok v ->
  (~ given (a_pmin a) /\ ~ given (a_pmax a) -> v_pmin v = a_lmin a /\ v_pmax v = a_lmax a) /\
  (given (a_pmin a) \/ given (a_pmax a) ->
   v_pmin v = Some (match a_pmin a with Some z => z | None => 0 end) /\
   v_pmax v = Some (match a_pmax a with Some z => z | None => 0 end)).
Proof.
  unfold mk_value. intros H.
  destruct (narr_truthy (a_named a)) as [b|e]; [|discriminate]. cbn [bind] in H.
  destruct (_ && _ && _) in H; [discriminate|].
  pose proof (zon (a_pmin a)) as Z1. pose proof (zon (a_pmax a)) as Z2.
  destruct (zero_or_none (a_pmin a)) eqn:E1; destruct (zero_or_none (a_pmax a)) eqn:E2;
  cbn [andb] in H;
  (destruct (a_named a) as [x|] eqn:N; [destruct b; [destruct (narr_len x) as [n|]; [|discriminate];
    cbn [bind] in H; destruct (a_lmin a) eqn:L; [|discriminate]|]|]);
  injection H as <-; simpl; rewrite ?L; split; intros G; auto; unfold or_zero; try tauto;
  exfalso;
  repeat match goal with
         | H : true = true <-> _ |- _ => pose proof (proj1 H eq_refl); clear H
         | H : false = true <-> ~ ?g |- _ =>
             assert (~ ~ g) by (intros X; apply H in X; discriminate); clear H
         end; tauto.
Qed.

Lemma c22_array k a v x :
  mk_value k a = Ok v -> a_named a = Some x -> ~ no_array (a_named a) ->
  exists lo, v_lmin v = Some lo /\ v_lmax v = Some (lo + array_size x - 1) /\ 0 < array_size x /\
    (a_usage a = None \/ a_usage a = Some (VInt 0) -> py_int (v_flags v) = 0) /\
    (a_usage a <> None /\ a_usage a <> Some (VInt 0) -> py_int (v_flags v) = 2).
Proof.
  intros H N A. unfold mk_value in H.
  destruct (narr_truthy (a_named a)) as [b|e] eqn:T; [|discriminate]. cbn [bind] in H.
  destruct (truthy_array _ _ T) as [[_ C]|[-> [y [E [L P]]]]]; [contradiction|].
  rewrite N in E. injection E as <-.
  destruct (_ && _ && _) in H; [discriminate|].
  rewrite N, L in H. cbn [bind] in H.
  destruct (zero_or_none _ && _) in H; (destruct (a_lmin a) as [lo|]; [|discriminate]);
  injection H as <-; exists lo; simpl; repeat split; auto; try (f_equal; lia).
  all: try (intros [-> | ->]; reflexivity).
  all: intros [U1 U2]; destruct (a_usage a) as [[z|n z|n z q]|]; try congruence; auto;
    simpl; destruct (Z.eqb_spec z 0); auto; congruence.
Qed.

Lemma c22_plain k a v :
  mk_value k a = Ok v -> no_array (a_named a) -> v_lmax v = a_lmax a /\ v_flags v = a_flags a.
Proof.
  intros H N. unfold mk_value in H. rewrite (truthy_no_array _ N) in H. cbn [bind] in H.
  destruct (_ && _ && _) in H; [discriminate|].
  destruct (zero_or_none _ && _) in H; destruct (a_named a); injection H as <-; simpl; auto.
Qed.

Lemma c18_partial db r n i :
  range_len r = Ok n -> 0 <= i < n ->
  exists x, range_getitem db r i = Ok x /\ nth_error (range_iter db r) (Z.to_nat i) = Some x
            /\ py_int x = py_int (r_min r) + i.
Proof.
  intros L H. exists (lookup db (VInt (py_int (r_min r) + i))). split; [reflexivity|].
  unfold range_len in L. destruct (_ <? 0) eqn:E; [discriminate|]. injection L as L.
  split; [|apply lookup_int].
  assert (K : (Z.to_nat i < length (range_iter db r))%nat).
  { rewrite <- (map_length py_int), range_iter_ints, upto_length. lia. }
  apply nth_error_Some in K. destruct (nth_error _ _) as [x|] eqn:N; [|congruence].
  apply range_getitem_ok in N. rewrite Z2Nat.id in N by lia. exact (eq_sym (f_equal Some
    (match N in _ = y return match y with Ok z => lookup db (VInt (py_int (r_min r) + i)) = z | Err _ => True end with eq_refl => eq_refl end))).
Qed.
